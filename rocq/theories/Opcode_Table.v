(** * The opcode table of the statistics

    powerpc_opcodes_qt of qtlib/ppc-opc.c:3532-7580 and the macros its
    entries are written with (qtlib/ppc.h, qtlib/ppc-opc.c), expression by
    expression.  A macro without parameters is a definition, one with
    parameters a function; this is the same as textual substitution because
    the macro bodies have their parameters in parentheses, and the bodies
    without parentheses of their own are joined only with "|".  Expressions
    are of 64 bits.  The operands of the entries, which the statistics do not
    look at, are left out. *)
From Coq Require Import NArith List String.
Import ListNotations.
Local Open Scope N_scope.
Local Open Scope string_scope.

Definition bnot (a : N) : N := N.lxor a 0xffffffffffffffff.
Definition shl64 (a n : N) : N := N.land (N.shiftl a n) 0xffffffffffffffff.
Local Infix ".|" := N.lor (at level 50, left associativity).
Local Infix ".&" := N.land (at level 48, left associativity).
Local Infix ".<<" := shl64 (at level 46, left associativity).

(** qtlib/ppc.h:35-63, without the operands *)
Record opcode := mk_opcode {
  oc_name : string; oc_opcode : N; oc_mask : N; oc_flags : N; oc_deprecated : N }.

(** ** Macros *)
(* qtlib/ppc-opc.c:2611 *)
Definition m_OP (p_x : N) : N := ((p_x .& 0x3f) .<< 26).
(* qtlib/ppc-opc.c:3010 *)
Definition m_X (p_op : N) (p_xop : N) : N := ((m_OP p_op) .| ((p_xop .& 0x3ff) .<< 1)).
(* qtlib/ppc-opc.c:3043 *)
Definition m_XRC (p_op : N) (p_xop : N) (p_rc : N) : N := ((m_X p_op p_xop) .| (p_rc .& 1)).
(* qtlib/ppc-opc.c:3058 *)
Definition m_X_MASK : N := (m_XRC 0x3f 0x3ff 1).
(* qtlib/ppc.h:119 *)
Definition m_PPC_OPCODE_POWER4 : N := 0x800.
(* qtlib/ppc-opc.c:3442 *)
Definition m_POWER4 : N := m_PPC_OPCODE_POWER4.
(* qtlib/ppc.h:176 *)
Definition m_PPC_OPCODE_A2 : N := 0x20000000.
(* qtlib/ppc-opc.c:3494 *)
Definition m_PPCA2 : N := m_PPC_OPCODE_A2.
(* qtlib/ppc.h:179 *)
Definition m_PPC_OPCODE_476 : N := 0x40000000.
(* qtlib/ppc-opc.c:3456 *)
Definition m_PPC476 : N := m_PPC_OPCODE_476.
(* qtlib/ppc.h:194 *)
Definition m_PPC_OPCODE_VLE : N := 0x800000000.
(* qtlib/ppc-opc.c:3499 *)
Definition m_PPCVLE : N := m_PPC_OPCODE_VLE.
(* qtlib/ppc-opc.c:2617 *)
Definition m_OPTO (p_x : N) (p_to : N) : N := ((m_OP p_x) .| ((p_to .& 0x1f) .<< 21)).
(* qtlib/ppc-opc.c:3421 *)
Definition m_TOLGT : N := 0x1.
(* qtlib/ppc-opc.c:2612 *)
Definition m_OP_MASK : N := (m_OP 0x3f).
(* qtlib/ppc-opc.c:2321 *)
Definition m_TO_MASK : N := (0x1f .<< 21).
(* qtlib/ppc-opc.c:2618 *)
Definition m_OPTO_MASK : N := (m_OP_MASK .| m_TO_MASK).
(* qtlib/ppc.h:88 *)
Definition m_PPC_OPCODE_64 : N := 0x8.
(* qtlib/ppc.h:107 *)
Definition m_PPC_OPCODE_64_BRIDGE : N := 0x80.
(* qtlib/ppc-opc.c:3449 *)
Definition m_PPC64 : N := (m_PPC_OPCODE_64 .| m_PPC_OPCODE_64_BRIDGE).
(* qtlib/ppc-opc.c:3422 *)
Definition m_TOLLT : N := 0x2.
(* qtlib/ppc-opc.c:3423 *)
Definition m_TOEQ : N := 0x4.
(* qtlib/ppc-opc.c:3424 *)
Definition m_TOLGE : N := 0x5.
(* qtlib/ppc-opc.c:3425 *)
Definition m_TOLNL : N := 0x5.
(* qtlib/ppc-opc.c:3426 *)
Definition m_TOLLE : N := 0x6.
(* qtlib/ppc-opc.c:3427 *)
Definition m_TOLNG : N := 0x6.
(* qtlib/ppc-opc.c:3428 *)
Definition m_TOGT : N := 0x8.
(* qtlib/ppc-opc.c:3429 *)
Definition m_TOGE : N := 0xc.
(* qtlib/ppc-opc.c:3430 *)
Definition m_TONL : N := 0xc.
(* qtlib/ppc-opc.c:3431 *)
Definition m_TOLT : N := 0x10.
(* qtlib/ppc-opc.c:3432 *)
Definition m_TOLE : N := 0x14.
(* qtlib/ppc-opc.c:3433 *)
Definition m_TONG : N := 0x14.
(* qtlib/ppc-opc.c:3434 *)
Definition m_TONE : N := 0x18.
(* qtlib/ppc-opc.c:3435 *)
Definition m_TOU : N := 0x1f.
(* qtlib/ppc.h:79 *)
Definition m_PPC_OPCODE_PPC : N := 0x1.
(* qtlib/ppc.h:100 *)
Definition m_PPC_OPCODE_COMMON : N := 0x20.
(* qtlib/ppc-opc.c:3441 *)
Definition m_PPCCOM : N := (m_PPC_OPCODE_PPC .| m_PPC_OPCODE_COMMON).
(* qtlib/ppc.h:82 *)
Definition m_PPC_OPCODE_POWER : N := 0x2.
(* qtlib/ppc.h:93 *)
Definition m_PPC_OPCODE_601 : N := 0x10.
(* qtlib/ppc-opc.c:3476 *)
Definition m_PWRCOM : N := ((m_PPC_OPCODE_POWER .| m_PPC_OPCODE_601) .| m_PPC_OPCODE_COMMON).
(* qtlib/ppc-opc.c:3061 *)
Definition m_XBF_MASK : N := (m_X_MASK .| (3 .<< 21)).
(* qtlib/ppc.h:161 *)
Definition m_PPC_OPCODE_PPCPS : N := 0x1000000.
(* qtlib/ppc-opc.c:3462 *)
Definition m_PPCPS : N := m_PPC_OPCODE_PPCPS.
(* qtlib/ppc-opc.c:2886 *)
Definition m_VX (p_op : N) (p_xop : N) : N := ((m_OP p_op) .| (p_xop .& 0x7ff)).
(* qtlib/ppc-opc.c:2889 *)
Definition m_VX_MASK : N := (m_VX 0x3f 0x7ff).
(* qtlib/ppc.h:110 *)
Definition m_PPC_OPCODE_ALTIVEC : N := 0x100.
(* qtlib/ppc-opc.c:3463 *)
Definition m_PPCVEC : N := m_PPC_OPCODE_ALTIVEC.
(* qtlib/ppc-opc.c:2962 *)
Definition m_VXVB_MASK : N := (m_VX_MASK .| (0x1f .<< 11)).
(* qtlib/ppc.h:209 *)
Definition m_PPC_OPCODE_POWER9 : N := 0x10000000000.
(* qtlib/ppc-opc.c:3465 *)
Definition m_PPCVEC3 : N := m_PPC_OPCODE_POWER9.
(* qtlib/ppc-opc.c:2995 *)
Definition m_VXR (p_op : N) (p_xop : N) (p_rc : N) : N := (((m_OP p_op) .| ((p_rc .& 1) .<< 10)) .| (p_xop .& 0x3ff)).
(* qtlib/ppc-opc.c:3001 *)
Definition m_VXR_MASK : N := (m_VXR 0x3f 0x3ff 1).
(* qtlib/ppc-opc.c:3355 *)
Definition m_XW (p_op : N) (p_xop : N) (p_rc : N) : N := (((m_OP p_op) .| ((p_xop .& 0x3f) .<< 1)) .| (p_rc .& 1)).
(* qtlib/ppc-opc.c:3360 *)
Definition m_XW_MASK : N := (m_XW 0x3f 0x3f 0).
(* qtlib/ppc.h:167 *)
Definition m_PPC_OPCODE_405 : N := 0x4000000.
(* qtlib/ppc.h:146 *)
Definition m_PPC_OPCODE_440 : N := 0x80000.
(* qtlib/ppc.h:182 *)
Definition m_PPC_OPCODE_TITAN : N := 0x80000000.
(* qtlib/ppc-opc.c:3495 *)
Definition m_TITAN : N := m_PPC_OPCODE_TITAN.
(* qtlib/ppc-opc.c:3496 *)
Definition m_MULHW : N := (((m_PPC_OPCODE_405 .| m_PPC_OPCODE_440) .| m_PPC_OPCODE_476) .| m_TITAN).
(* qtlib/ppc-opc.c:2640 *)
Definition m_A (p_op : N) (p_xop : N) (p_rc : N) : N := (((m_OP p_op) .| ((p_xop .& 0x1f) .<< 1)) .| (p_rc .& 1)).
(* qtlib/ppc-opc.c:2644 *)
Definition m_A_MASK : N := (m_A 0x3f 0x1f 1).
(* qtlib/ppc-opc.c:1982 *)
Definition m_FRB_MASK : N := (0x1f .<< 11).
(* qtlib/ppc-opc.c:2647 *)
Definition m_AFRB_MASK : N := (m_A_MASK .| m_FRB_MASK).
(* qtlib/ppc-opc.c:3294 *)
Definition m_XO (p_op : N) (p_xop : N) (p_oe : N) (p_rc : N) : N := ((((m_OP p_op) .| ((p_xop .& 0x1ff) .<< 1)) .| ((p_oe .& 1) .<< 10)) .| (p_rc .& 1)).
(* qtlib/ppc-opc.c:3299 *)
Definition m_XO_MASK : N := (m_XO 0x3f 0x1ff 1 1).
(* qtlib/ppc-opc.c:2986 *)
Definition m_VXA (p_op : N) (p_xop : N) : N := ((m_OP p_op) .| (p_xop .& 0x03f)).
(* qtlib/ppc-opc.c:2989 *)
Definition m_VXA_MASK : N := (m_VXA 0x3f 0x3f).
(* qtlib/ppc-opc.c:1991 *)
Definition m_FRC_MASK : N := (0x1f .<< 6).
(* qtlib/ppc-opc.c:2650 *)
Definition m_AFRC_MASK : N := (m_A_MASK .| m_FRC_MASK).
(* qtlib/ppc-opc.c:2992 *)
Definition m_VXASHB_MASK : N := (m_VXA_MASK .| (1 .<< 10)).
(* qtlib/ppc.h:197 *)
Definition m_PPC_OPCODE_POWER8 : N := 0x1000000000.
(* qtlib/ppc.h:188 *)
Definition m_PPC_OPCODE_E6500 : N := 0x200000000.
(* qtlib/ppc-opc.c:3464 *)
Definition m_PPCVEC2 : N := (m_PPC_OPCODE_POWER8 .| m_PPC_OPCODE_E6500).
(* qtlib/ppc-opc.c:1973 *)
Definition m_FRA_MASK : N := (0x1f .<< 16).
(* qtlib/ppc-opc.c:2653 *)
Definition m_AFRAFRC_MASK : N := ((m_A_MASK .| m_FRA_MASK) .| m_FRC_MASK).
(* qtlib/ppc-opc.c:3447 *)
Definition m_POWER9 : N := m_PPC_OPCODE_POWER9.
(* qtlib/ppc-opc.c:2103 *)
Definition m_RA_MASK : N := (0x1f .<< 16).
(* qtlib/ppc-opc.c:3119 *)
Definition m_XRA_MASK : N := (m_X_MASK .| m_RA_MASK).
(* qtlib/ppc-opc.c:2959 *)
Definition m_VXVA_MASK : N := (m_VX_MASK .| (0x1f .<< 16)).
(* qtlib/ppc.h:125 *)
Definition m_PPC_OPCODE_SPE : N := 0x1000.
(* qtlib/ppc-opc.c:3483 *)
Definition m_PPCSPE : N := m_PPC_OPCODE_SPE.
(* qtlib/ppc-opc.c:2971 *)
Definition m_VXUIMM4_MASK : N := (m_VX_MASK .| (0x1 .<< 20)).
(* qtlib/ppc-opc.c:3363 *)
Definition m_APU (p_op : N) (p_xop : N) (p_rc : N) : N := (((m_OP p_op) .| ((p_xop .& 0x3ff) .<< 1)) .| (p_rc .& 1)).
(* qtlib/ppc-opc.c:3369 *)
Definition m_APU_MASK : N := (m_APU 0x3f 0x3ff 1).
(* qtlib/ppc-opc.c:3371 *)
Definition m_APU_RA_MASK : N := (m_APU_MASK .| m_RA_MASK).
(* qtlib/ppc-opc.c:3453 *)
Definition m_PPC405 : N := m_PPC_OPCODE_405.
(* qtlib/ppc-opc.c:2974 *)
Definition m_VXUIMM3_MASK : N := (m_VX_MASK .| (0x3 .<< 19)).
(* qtlib/ppc-opc.c:2780 *)
Definition m_EVSEL (p_op : N) (p_xop : N) : N := ((m_OP p_op) .| ((p_xop .& 0xff) .<< 3)).
(* qtlib/ppc-opc.c:2781 *)
Definition m_EVSEL_MASK : N := (m_EVSEL 0x3f 0xff).
(* qtlib/ppc-opc.c:2905 *)
Definition m_VX_RB_CONST (p_op : N) (p_xop : N) (p_bits16_20 : N) : N := (((m_OP p_op) .| ((p_bits16_20 .& 0x1f) .<< 11)) .| (p_xop .& 0x7ff)).
(* qtlib/ppc-opc.c:2909 *)
Definition m_VX_RB_CONST_MASK : N := (m_VX_RB_CONST 0x3f 0x7ff 0x1f).
(* qtlib/ppc.h:227 *)
Definition m_PPC_OPCODE_EFS2 : N := 0x200000000000.
(* qtlib/ppc-opc.c:3487 *)
Definition m_PPCEFS2 : N := m_PPC_OPCODE_EFS2.
(* qtlib/ppc-opc.c:2977 *)
Definition m_VXUIMM2_MASK : N := (m_VX_MASK .| (0x7 .<< 18)).
(* qtlib/ppc-opc.c:2899 *)
Definition m_VX_RA_CONST (p_op : N) (p_xop : N) (p_bits11_15 : N) : N := (((m_OP p_op) .| ((p_bits11_15 .& 0x1f) .<< 16)) .| (p_xop .& 0x7ff)).
(* qtlib/ppc-opc.c:2903 *)
Definition m_VX_RA_CONST_MASK : N := (m_VX_RA_CONST 0x3f 0x7ff 0x1f).
(* qtlib/ppc-opc.c:2166 *)
Definition m_RT_MASK : N := (0x1f .<< 21).
(* qtlib/ppc-opc.c:3370 *)
Definition m_APU_RT_MASK : N := (m_APU_MASK .| m_RT_MASK).
(* qtlib/ppc.h:131 *)
Definition m_PPC_OPCODE_EFS : N := 0x4000.
(* qtlib/ppc-opc.c:3486 *)
Definition m_PPCEFS : N := m_PPC_OPCODE_EFS.
(* qtlib/ppc.h:185 *)
Definition m_PPC_OPCODE_E500 : N := 0x100000000.
(* qtlib/ppc-opc.c:3497 *)
Definition m_E500 : N := m_PPC_OPCODE_E500.
(* qtlib/ppc.h:164 *)
Definition m_PPC_OPCODE_E500MC : N := 0x2000000.
(* qtlib/ppc-opc.c:3493 *)
Definition m_E500MC : N := m_PPC_OPCODE_E500MC.
(* qtlib/ppc-opc.c:2980 *)
Definition m_VXPS_MASK : N := (m_VX_MASK .& (bnot (0x1 .<< 9))).
(* qtlib/ppc-opc.c:3454 *)
Definition m_PPC440 : N := m_PPC_OPCODE_440.
(* qtlib/ppc-opc.c:3305 *)
Definition m_XOPS (p_op : N) (p_xop : N) (p_rc : N) : N := (((m_OP p_op) .| ((p_xop .& 0x3ff) .<< 1)) .| (p_rc .& 1)).
(* qtlib/ppc-opc.c:3309 *)
Definition m_XOPS_MASK : N := (m_XOPS 0x3f 0x3ff 1).
(* qtlib/ppc-opc.c:3004 *)
Definition m_VXVA (p_op : N) (p_xop : N) (p_vaop : N) : N := ((m_VX p_op p_xop) .| ((p_vaop .& 0x1f) .<< 16)).
(* qtlib/ppc-opc.c:2983 *)
Definition m_VXVAPS_MASK : N := ((m_VX_MASK .| (0x1f .<< 16)) .& (bnot (0x1 .<< 9))).
(* qtlib/ppc-opc.c:2965 *)
Definition m_VXVAVB_MASK : N := ((m_VX_MASK .| (0x1f .<< 16)) .| (0x1f .<< 11)).
(* qtlib/ppc-opc.c:2968 *)
Definition m_VXVDVA_MASK : N := ((m_VX_MASK .| (0x1f .<< 21)) .| (0x1f .<< 16)).
(* qtlib/ppc-opc.c:3130 *)
Definition m_XRT_MASK : N := (m_X_MASK .| m_RT_MASK).
(* qtlib/ppc-opc.c:3475 *)
Definition m_M601 : N := (m_PPC_OPCODE_POWER .| m_PPC_OPCODE_601).
(* qtlib/ppc-opc.c:2623 *)
Definition m_OPL (p_x : N) (p_l : N) : N := ((m_OP p_x) .| ((p_l .& 1) .<< 21)).
(* qtlib/ppc-opc.c:2624 *)
Definition m_OPL_MASK : N := (m_OPL 0x3f 1).
(* qtlib/ppc-opc.c:3440 *)
Definition m_PPC : N := m_PPC_OPCODE_PPC.
(* qtlib/ppc-opc.c:2763 *)
Definition m_DRA_MASK : N := (m_OP_MASK .| m_RA_MASK).
(* qtlib/ppc-opc.c:2659 *)
Definition m_B (p_op : N) (p_aa : N) (p_lk : N) : N := (((m_OP p_op) .| ((p_aa .& 1) .<< 1)) .| (p_lk .& 1)).
(* qtlib/ppc-opc.c:2719 *)
Definition m_BBO (p_op : N) (p_bo : N) (p_aa : N) (p_lk : N) : N := ((m_B p_op p_aa p_lk) .| ((p_bo .& 0x1f) .<< 21)).
(* qtlib/ppc-opc.c:3392 *)
Definition m_BODNZ : N := 0x10.
(* qtlib/ppc-opc.c:2735 *)
Definition m_BBOCB (p_op : N) (p_bo : N) (p_cb : N) (p_aa : N) (p_lk : N) : N := ((m_BBO p_op p_bo p_aa p_lk) .| ((p_cb .& 0x3) .<< 16)).
(* qtlib/ppc-opc.c:2737 *)
Definition m_BBOCB_MASK : N := (m_BBOCB 0x3f 0x1f 0x3 1 1).
(* qtlib/ppc-opc.c:2729 *)
Definition m_AT2_MASK : N := (9 .<< 21).
(* qtlib/ppc-opc.c:2742 *)
Definition m_BBOAT2CB_MASK : N := (m_BBOCB_MASK .& (bnot m_AT2_MASK)).
(* qtlib/ppc-opc.c:1737 *)
Definition m_BI_MASK : N := (0x1f .<< 16).
(* qtlib/ppc-opc.c:2746 *)
Definition m_BBOATBI_MASK : N := (m_BBOAT2CB_MASK .| m_BI_MASK).
(* qtlib/ppc-opc.c:3394 *)
Definition m_BODZ : N := 0x12.
(* qtlib/ppc-opc.c:3474 *)
Definition m_COM : N := ((m_PPC_OPCODE_POWER .| m_PPC_OPCODE_PPC) .| m_PPC_OPCODE_COMMON).
(* qtlib/ppc-opc.c:3383 *)
Definition m_BOF : N := 0x4.
(* qtlib/ppc-opc.c:3415 *)
Definition m_CBLT : N := 0.
(* qtlib/ppc-opc.c:2728 *)
Definition m_AT1_MASK : N := (3 .<< 21).
(* qtlib/ppc-opc.c:2741 *)
Definition m_BBOATCB_MASK : N := (m_BBOCB_MASK .& (bnot m_AT1_MASK)).
(* qtlib/ppc-opc.c:3416 *)
Definition m_CBGT : N := 1.
(* qtlib/ppc-opc.c:3417 *)
Definition m_CBEQ : N := 2.
(* qtlib/ppc-opc.c:3418 *)
Definition m_CBSO : N := 3.
(* qtlib/ppc-opc.c:3387 *)
Definition m_BOT : N := 0xc.
(* qtlib/ppc-opc.c:3374 *)
Definition m_BODNZF : N := 0x0.
(* qtlib/ppc-opc.c:2722 *)
Definition m_BBO_MASK : N := (m_BBO 0x3f 0x1f 1 1).
(* qtlib/ppc-opc.c:2727 *)
Definition m_Y_MASK : N := (1 .<< 21).
(* qtlib/ppc-opc.c:2730 *)
Definition m_BBOY_MASK : N := (m_BBO_MASK .& (bnot m_Y_MASK)).
(* qtlib/ppc-opc.c:223 *)
Definition m_ISA_V2 : N := ((m_PPC_OPCODE_POWER4 .| m_PPC_OPCODE_E500MC) .| m_PPC_OPCODE_TITAN).
(* qtlib/ppc-opc.c:3376 *)
Definition m_BODZF : N := 0x2.
(* qtlib/ppc-opc.c:2731 *)
Definition m_BBOAT_MASK : N := (m_BBO_MASK .& (bnot m_AT1_MASK)).
(* qtlib/ppc-opc.c:3378 *)
Definition m_BODNZT : N := 0x8.
(* qtlib/ppc-opc.c:3380 *)
Definition m_BODZT : N := 0xa.
(* qtlib/ppc-opc.c:2663 *)
Definition m_B_MASK : N := (m_B 0x3f 1 1).
(* qtlib/ppc-opc.c:2842 *)
Definition m_SC (p_op : N) (p_sa : N) (p_lk : N) : N := (((m_OP p_op) .| ((p_sa .& 1) .<< 1)) .| (p_lk .& 1)).
(* qtlib/ppc-opc.c:2846 *)
Definition m_SC_MASK : N := (((m_OP_MASK .| (0x3ff .<< 16)) .| (1 .<< 1)) .| 1).
(* qtlib/ppc-opc.c:3469 *)
Definition m_POWER : N := m_PPC_OPCODE_POWER.
(* qtlib/ppc-opc.c:3245 *)
Definition m_XL (p_op : N) (p_xop : N) : N := ((m_OP p_op) .| ((p_xop .& 0x3ff) .<< 1)).
(* qtlib/ppc-opc.c:3248 *)
Definition m_XLLK (p_op : N) (p_xop : N) (p_lk : N) : N := ((m_XL p_op p_xop) .| (p_lk .& 1)).
(* qtlib/ppc-opc.c:3251 *)
Definition m_XL_MASK : N := (m_XLLK 0x3f 0x3ff 1).
(* qtlib/ppc-opc.c:1747 *)
Definition m_BB_MASK : N := (0x1f .<< 11).
(* qtlib/ppc-opc.c:3275 *)
Definition m_XLBB_MASK : N := (m_XL_MASK .| m_BB_MASK).
(* qtlib/ppc-opc.c:2774 *)
Definition m_DX (p_op : N) (p_xop : N) : N := ((m_OP p_op) .| ((p_xop .& 0x1f) .<< 1)).
(* qtlib/ppc-opc.c:2775 *)
Definition m_DX_MASK : N := (m_DX 0x3f 0x1f).
(* qtlib/ppc-opc.c:2777 *)
Definition m_NODX_MASK : N := (m_DX_MASK .| 0x1fffc1).
(* qtlib/ppc-opc.c:3257 *)
Definition m_XLO (p_op : N) (p_bo : N) (p_xop : N) (p_lk : N) : N := ((m_XLLK p_op p_xop p_lk) .| ((p_bo .& 0x1f) .<< 21)).
(* qtlib/ppc-opc.c:1823 *)
Definition m_BO_MASK : N := (0x1f .<< 21).
(* qtlib/ppc-opc.c:3286 *)
Definition m_XLBOBIBB_MASK : N := (((m_XL_MASK .| m_BO_MASK) .| m_BI_MASK) .| m_BB_MASK).
(* qtlib/ppc-opc.c:3393 *)
Definition m_BODNZP : N := 0x11.
(* qtlib/ppc-opc.c:3395 *)
Definition m_BODZP : N := 0x13.
(* qtlib/ppc-opc.c:3401 *)
Definition m_BOU : N := 0x14.
(* qtlib/ppc-opc.c:3396 *)
Definition m_BODNZM4 : N := 0x18.
(* qtlib/ppc-opc.c:3397 *)
Definition m_BODNZP4 : N := 0x19.
(* qtlib/ppc-opc.c:3398 *)
Definition m_BODZM4 : N := 0x1a.
(* qtlib/ppc-opc.c:3399 *)
Definition m_BODZP4 : N := 0x1b.
(* qtlib/ppc-opc.c:3270 *)
Definition m_XLOCB (p_op : N) (p_bo : N) (p_cb : N) (p_xop : N) (p_lk : N) : N := ((m_XLO p_op p_bo p_xop p_lk) .| ((p_cb .& 3) .<< 16)).
(* qtlib/ppc-opc.c:3272 *)
Definition m_XLOCB_MASK : N := (m_XLOCB 0x3f 0x1f 0x3 0x3ff 1).
(* qtlib/ppc-opc.c:3277 *)
Definition m_XLBOCBBB_MASK : N := (m_XLOCB_MASK .| m_BB_MASK).
(* qtlib/ppc-opc.c:3384 *)
Definition m_BOFP : N := 0x5.
(* qtlib/ppc-opc.c:3385 *)
Definition m_BOFM4 : N := 0x6.
(* qtlib/ppc-opc.c:3386 *)
Definition m_BOFP4 : N := 0x7.
(* qtlib/ppc-opc.c:3388 *)
Definition m_BOTP : N := 0xd.
(* qtlib/ppc-opc.c:3389 *)
Definition m_BOTM4 : N := 0xe.
(* qtlib/ppc-opc.c:3390 *)
Definition m_BOTP4 : N := 0xf.
(* qtlib/ppc-opc.c:3283 *)
Definition m_XLBOBB_MASK : N := ((m_XL_MASK .| m_BO_MASK) .| m_BB_MASK).
(* qtlib/ppc-opc.c:3375 *)
Definition m_BODNZFP : N := 0x1.
(* qtlib/ppc-opc.c:3377 *)
Definition m_BODZFP : N := 0x3.
(* qtlib/ppc-opc.c:3379 *)
Definition m_BODNZTP : N := 0x9.
(* qtlib/ppc-opc.c:3381 *)
Definition m_BODZTP : N := 0xb.
(* qtlib/ppc-opc.c:3263 *)
Definition m_XLYLK (p_op : N) (p_xop : N) (p_y : N) (p_lk : N) : N := ((m_XLLK p_op p_xop p_lk) .| ((p_y .& 1) .<< 21)).
(* qtlib/ppc-opc.c:3266 *)
Definition m_XLYLK_MASK : N := (m_XL_MASK .| m_Y_MASK).
(* qtlib/ppc-opc.c:3276 *)
Definition m_XLYBB_MASK : N := (m_XLYLK_MASK .| m_BB_MASK).
(* qtlib/ppc-opc.c:3280 *)
Definition m_XLBH_MASK : N := (m_XL_MASK .| (0x1c .<< 11)).
(* qtlib/ppc.h:143 *)
Definition m_PPC_OPCODE_RFMCI : N := 0x40000.
(* qtlib/ppc-opc.c:3492 *)
Definition m_PPCRFMCI : N := m_PPC_OPCODE_RFMCI.
(* qtlib/ppc.h:113 *)
Definition m_PPC_OPCODE_403 : N := 0x200.
(* qtlib/ppc-opc.c:3452 *)
Definition m_PPC403 : N := m_PPC_OPCODE_403.
(* qtlib/ppc.h:116 *)
Definition m_PPC_OPCODE_BOOKE : N := 0x400.
(* qtlib/ppc-opc.c:3480 *)
Definition m_BOOKE : N := m_PPC_OPCODE_BOOKE.
(* qtlib/ppc.h:152 *)
Definition m_PPC_OPCODE_E300 : N := 0x200000.
(* qtlib/ppc-opc.c:3482 *)
Definition m_PPCE300 : N := m_PPC_OPCODE_E300.
(* qtlib/ppc-opc.c:2140 *)
Definition m_RB_MASK : N := (0x1f .<< 11).
(* qtlib/ppc-opc.c:3254 *)
Definition m_XLS_MASK : N := ((((m_XL_MASK .| m_RT_MASK) .| m_RA_MASK) .| m_RB_MASK) .& (bnot (1 .<< 11))).
(* qtlib/ppc-opc.c:3446 *)
Definition m_POWER8 : N := m_PPC_OPCODE_POWER8.
(* qtlib/ppc.h:149 *)
Definition m_PPC_OPCODE_POWER5 : N := 0x100000.
(* qtlib/ppc-opc.c:3443 *)
Definition m_POWER5 : N := m_PPC_OPCODE_POWER5.
(* qtlib/ppc.h:158 *)
Definition m_PPC_OPCODE_CELL : N := 0x800000.
(* qtlib/ppc-opc.c:3448 *)
Definition m_CELL : N := m_PPC_OPCODE_CELL.
(* qtlib/ppc.h:155 *)
Definition m_PPC_OPCODE_POWER6 : N := 0x400000.
(* qtlib/ppc-opc.c:3444 *)
Definition m_POWER6 : N := m_PPC_OPCODE_POWER6.
(* qtlib/ppc-opc.c:2800 *)
Definition m_M (p_op : N) (p_rc : N) : N := ((m_OP p_op) .| (p_rc .& 1)).
(* qtlib/ppc-opc.c:2801 *)
Definition m_M_MASK : N := (m_M 0x3f 1).
(* qtlib/ppc-opc.c:2808 *)
Definition m_MME (p_op : N) (p_me : N) (p_rc : N) : N := ((m_M p_op p_rc) .| ((p_me .& 0x1f) .<< 1)).
(* qtlib/ppc-opc.c:1880 *)
Definition m_MB_MASK : N := (0x1f .<< 6).
(* qtlib/ppc-opc.c:2061 *)
Definition m_ME_MASK : N := (0x1f .<< 1).
(* qtlib/ppc-opc.c:2813 *)
Definition m_MMBME_MASK : N := ((m_M_MASK .| m_MB_MASK) .| m_ME_MASK).
(* qtlib/ppc-opc.c:2227 *)
Definition m_SH_MASK : N := (0x1f .<< 11).
(* qtlib/ppc-opc.c:2816 *)
Definition m_MSHME_MASK : N := ((m_M_MASK .| m_SH_MASK) .| m_ME_MASK).
(* qtlib/ppc-opc.c:2819 *)
Definition m_MD (p_op : N) (p_xop : N) (p_rc : N) : N := (((m_OP p_op) .| ((p_xop .& 0x7) .<< 2)) .| (p_rc .& 1)).
(* qtlib/ppc-opc.c:2823 *)
Definition m_MD_MASK : N := (m_MD 0x3f 0x7 1).
(* qtlib/ppc-opc.c:2076 *)
Definition m_MB6_MASK : N := (0x3f .<< 5).
(* qtlib/ppc-opc.c:2826 *)
Definition m_MDMB_MASK : N := (m_MD_MASK .| m_MB6_MASK).
(* qtlib/ppc-opc.c:2246 *)
Definition m_SH6_MASK : N := ((0x1f .<< 11) .| (1 .<< 1)).
(* qtlib/ppc-opc.c:2829 *)
Definition m_MDSH_MASK : N := (m_MD_MASK .| m_SH6_MASK).
(* qtlib/ppc-opc.c:2832 *)
Definition m_MDS (p_op : N) (p_xop : N) (p_rc : N) : N := (((m_OP p_op) .| ((p_xop .& 0xf) .<< 1)) .| (p_rc .& 1)).
(* qtlib/ppc-opc.c:2836 *)
Definition m_MDS_MASK : N := (m_MDS 0x3f 0xf 1).
(* qtlib/ppc-opc.c:2839 *)
Definition m_MDSMB_MASK : N := (m_MDS_MASK .| m_MB6_MASK).
(* qtlib/ppc-opc.c:3169 *)
Definition m_XOPL (p_op : N) (p_xop : N) (p_l : N) : N := ((m_X p_op p_xop) .| ((p_l .& 1) .<< 21)).
(* qtlib/ppc-opc.c:3195 *)
Definition m_XCMP_MASK : N := (m_X_MASK .| (1 .<< 22)).
(* qtlib/ppc-opc.c:3199 *)
Definition m_XCMPL_MASK : N := (m_XCMP_MASK .| (1 .<< 21)).
(* qtlib/ppc-opc.c:3202 *)
Definition m_XTO (p_op : N) (p_xop : N) (p_to : N) : N := ((m_X p_op p_xop) .| ((p_to .& 0x1f) .<< 21)).
(* qtlib/ppc-opc.c:3205 *)
Definition m_XTO_MASK : N := (m_X_MASK .| m_TO_MASK).
(* qtlib/ppc-opc.c:3068 *)
Definition m_XX1_MASK : N := (m_X 0x3f 0x3ff).
(* qtlib/ppc-opc.c:3467 *)
Definition m_PPCVSX2 : N := m_PPC_OPCODE_POWER8.
(* qtlib/ppc.h:128 *)
Definition m_PPC_OPCODE_ISEL : N := 0x2000.
(* qtlib/ppc-opc.c:3485 *)
Definition m_PPCISEL : N := m_PPC_OPCODE_ISEL.
(* qtlib/ppc-opc.c:3323 *)
Definition m_XFXM (p_op : N) (p_xop : N) (p_fxm : N) (p_p4 : N) : N := (((m_X p_op p_xop) .| ((p_fxm .& 0xff) .<< 12)) .| (p_p4 .<< 20)).
(* qtlib/ppc-opc.c:3320 *)
Definition m_XFXFXM_MASK : N := ((m_X_MASK .| (1 .<< 11)) .| (1 .<< 20)).
(* qtlib/ppc-opc.c:3227 *)
Definition m_XEH_MASK : N := (m_X_MASK .& (bnot 1)).
(* qtlib/ppc-opc.c:3127 *)
Definition m_XRB_MASK : N := (m_X_MASK .| m_RB_MASK).
(* qtlib/ppc-opc.c:3157 *)
Definition m_XRTRARB_MASK : N := (((m_X_MASK .| m_RT_MASK) .| m_RA_MASK) .| m_RB_MASK).
(* qtlib/ppc-opc.c:3109 *)
Definition m_XWC_MASK : N := ((((m_XRC 0x3f 0x3ff 1) .| (7 .<< 23)) .| m_RA_MASK) .| m_RB_MASK).
(* qtlib/ppc-opc.c:3498 *)
Definition m_E6500 : N := m_PPC_OPCODE_E6500.
(* qtlib/ppc-opc.c:3241 *)
Definition m_XISEL (p_op : N) (p_xop : N) : N := ((m_OP p_op) .| ((p_xop .& 0x1f) .<< 1)).
(* qtlib/ppc-opc.c:3242 *)
Definition m_XISEL_MASK : N := (m_XISEL 0x3f 0x1f).
(* qtlib/ppc-opc.c:3071 *)
Definition m_XX1RB_MASK : N := (m_XX1_MASK .| m_RB_MASK).
(* qtlib/ppc-opc.c:3184 *)
Definition m_XRT (p_op : N) (p_xop : N) (p_rt : N) : N := ((m_X p_op p_xop) .| ((p_rt .& 0x1f) .<< 21)).
(* qtlib/ppc-opc.c:3136 *)
Definition m_XRARB_MASK : N := ((m_X_MASK .| m_RA_MASK) .| m_RB_MASK).
(* qtlib/ppc-opc.c:3133 *)
Definition m_XLRT_MASK : N := (m_XRT_MASK .& (bnot (0x3 .<< 21))).
(* qtlib/ppc-opc.c:3302 *)
Definition m_XORB_MASK : N := (m_XO_MASK .| m_RB_MASK).
(* qtlib/ppc.h:140 *)
Definition m_PPC_OPCODE_CACHELCK : N := 0x20000.
(* qtlib/ppc-opc.c:3491 *)
Definition m_PPCCHLK : N := m_PPC_OPCODE_CACHELCK.
(* qtlib/ppc-opc.c:3189 *)
Definition m_XRTRA (p_op : N) (p_xop : N) (p_rt : N) (p_ra : N) : N := (((m_X p_op p_xop) .| ((p_rt .& 0x1f) .<< 21)) .| ((p_ra .& 0x1f) .<< 16)).
(* qtlib/ppc-opc.c:3148 *)
Definition m_XRTRA_MASK : N := ((m_X_MASK .| m_RT_MASK) .| m_RA_MASK).
(* qtlib/ppc-opc.c:3142 *)
Definition m_XRLARB_MASK : N := (m_XRARB_MASK .& (bnot (1 .<< 16))).
(* qtlib/ppc-opc.c:3160 *)
Definition m_XRTLRARB_MASK : N := (m_XRTRARB_MASK .& (bnot (1 .<< 21))).
(* qtlib/ppc-opc.c:3348 *)
Definition m_XE_MASK : N := 0xffff7fff.
(* qtlib/ppc-opc.c:3040 *)
Definition m_Z (p_op : N) (p_xop : N) : N := ((m_OP p_op) .| ((p_xop .& 0x1ff) .<< 1)).
(* qtlib/ppc-opc.c:3055 *)
Definition m_ZRC (p_op : N) (p_xop : N) (p_rc : N) : N := ((m_Z p_op p_xop) .| (p_rc .& 1)).
(* qtlib/ppc-opc.c:3116 *)
Definition m_Z2_MASK : N := (m_ZRC 0x3f 0xff 1).
(* qtlib/ppc-opc.c:2178 *)
Definition m_Q_MASK : N := (1 .<< 21).
(* qtlib/ppc-opc.c:3450 *)
Definition m_NON32 : N := ((((m_PPC_OPCODE_64 .| m_PPC_OPCODE_POWER4) .| m_PPC_OPCODE_EFS) .| m_PPC_OPCODE_E500MC) .| m_PPC_OPCODE_TITAN).
(* qtlib/ppc.h:173 *)
Definition m_PPC_OPCODE_POWER7 : N := 0x10000000.
(* qtlib/ppc-opc.c:3445 *)
Definition m_POWER7 : N := m_PPC_OPCODE_POWER7.
(* qtlib/ppc-opc.c:3505 *)
Definition m_DCBT_EO : N := (((m_PPC_OPCODE_E500 .| m_PPC_OPCODE_E500MC) .| m_PPC_OPCODE_476) .| m_PPC_OPCODE_A2).
(* qtlib/ppc-opc.c:3468 *)
Definition m_PPCVSX3 : N := m_PPC_OPCODE_POWER9.
(* qtlib/ppc-opc.c:3154 *)
Definition m_XRTLRA_MASK : N := (m_XRTRA_MASK .& (bnot (1 .<< 21))).
(* qtlib/ppc-opc.c:3455 *)
Definition m_PPC464 : N := m_PPC440.
(* qtlib/ppc-opc.c:3329 *)
Definition m_XSPR (p_op : N) (p_xop : N) (p_spr : N) : N := (((m_X p_op p_xop) .| ((p_spr .& 0x1f) .<< 16)) .| ((p_spr .& 0x3e0) .<< 6)).
(* qtlib/ppc-opc.c:2273 *)
Definition m_SPR_MASK : N := (0x3ff .<< 11).
(* qtlib/ppc-opc.c:3333 *)
Definition m_XSPR_MASK : N := (m_X_MASK .| m_SPR_MASK).
(* qtlib/ppc.h:170 *)
Definition m_PPC_OPCODE_VSX : N := 0x8000000.
(* qtlib/ppc-opc.c:3466 *)
Definition m_PPCVSX : N := m_PPC_OPCODE_VSX.
(* qtlib/ppc.h:137 *)
Definition m_PPC_OPCODE_PMR : N := 0x10000.
(* qtlib/ppc-opc.c:3489 *)
Definition m_PPCPMR : N := m_PPC_OPCODE_PMR.
(* qtlib/ppc.h:191 *)
Definition m_PPC_OPCODE_TMR : N := 0x400000000.
(* qtlib/ppc-opc.c:3490 *)
Definition m_PPCTMR : N := m_PPC_OPCODE_TMR.
(* qtlib/ppc-opc.c:3477 *)
Definition m_MFDEC1 : N := m_PPC_OPCODE_POWER.
(* qtlib/ppc-opc.c:3478 *)
Definition m_MFDEC2 : N := (((m_PPC_OPCODE_PPC .| m_PPC_OPCODE_601) .| m_PPC_OPCODE_BOOKE) .| m_PPC_OPCODE_TITAN).
(* qtlib/ppc.h:206 *)
Definition m_PPC_OPCODE_860 : N := 0x8000000000.
(* qtlib/ppc-opc.c:3461 *)
Definition m_PPC860 : N := m_PPC_OPCODE_860.
(* qtlib/ppc-opc.c:3345 *)
Definition m_XSPRG_MASK : N := (m_XSPR_MASK .& (bnot (0x1f .<< 16))).
(* qtlib/ppc.h:134 *)
Definition m_PPC_OPCODE_BRLOCK : N := 0x8000.
(* qtlib/ppc-opc.c:3488 *)
Definition m_PPCBRLK : N := m_PPC_OPCODE_BRLOCK.
(* qtlib/ppc-opc.c:2278 *)
Definition m_SPRBAT_MASK : N := (0xc1 .<< 11).
(* qtlib/ppc-opc.c:3337 *)
Definition m_XSPRBAT_MASK : N := (m_XSPR_MASK .& (bnot m_SPRBAT_MASK)).
(* qtlib/ppc-opc.c:2283 *)
Definition m_SPRGQR_MASK : N := (0x7 .<< 16).
(* qtlib/ppc-opc.c:3341 *)
Definition m_XSPRGQR_MASK : N := (m_XSPR_MASK .& (bnot m_SPRGQR_MASK)).
(* qtlib/ppc.h:200 *)
Definition m_PPC_OPCODE_750 : N := 0x2000000000.
(* qtlib/ppc-opc.c:3458 *)
Definition m_GEKKO : N := m_PPC_OPCODE_750.
(* qtlib/ppc-opc.c:3457 *)
Definition m_PPC750 : N := m_PPC_OPCODE_750.
(* qtlib/ppc-opc.c:3459 *)
Definition m_BROADWAY : N := m_PPC_OPCODE_750.
(* qtlib/ppc-opc.c:3230 *)
Definition m_XDSS (p_op : N) (p_xop : N) (p_a : N) : N := ((m_X p_op p_xop) .| ((p_a .& 1) .<< 25)).
(* qtlib/ppc-opc.c:3231 *)
Definition m_XDSS_MASK : N := (m_XDSS 0x3f 0x3ff 1).
(* qtlib/ppc-opc.c:3481 *)
Definition m_NO371 : N := ((m_PPC_OPCODE_BOOKE .| m_PPC_OPCODE_PPCPS) .| m_PPC_OPCODE_EFS).
(* qtlib/ppc-opc.c:3139 *)
Definition m_XBFRARB_MASK : N := ((m_XBF_MASK .| m_RA_MASK) .| m_RB_MASK).
(* qtlib/ppc.h:212 *)
Definition m_PPC_OPCODE_E200Z4 : N := 0x20000000000.
(* qtlib/ppc-opc.c:3501 *)
Definition m_E200Z4 : N := m_PPC_OPCODE_E200Z4.
(* qtlib/ppc-opc.c:3214 *)
Definition m_XSYNC (p_op : N) (p_xop : N) (p_l : N) : N := ((m_X p_op p_xop) .| ((p_l .& 3) .<< 21)).
(* qtlib/ppc-opc.c:3224 *)
Definition m_XSYNCLE_MASK : N := 0xff90ffff.
(* qtlib/ppc-opc.c:3220 *)
Definition m_XSYNC_MASK : N := 0xff9fffff.
(* qtlib/ppc-opc.c:3500 *)
Definition m_PPCHTM : N := m_PPC_OPCODE_POWER8.
(* qtlib/ppc-opc.c:3163 *)
Definition m_XRTARARB_MASK : N := (m_XRTRARB_MASK .& (bnot (1 .<< 25))).
(* qtlib/ppc-opc.c:3166 *)
Definition m_XRTBFRARB_MASK : N := (m_XRTRARB_MASK .& (bnot (7 .<< 23))).
(* qtlib/ppc-opc.c:3179 *)
Definition m_XRCL (p_op : N) (p_xop : N) (p_l : N) (p_rc : N) : N := ((m_XRC p_op p_xop p_rc) .| ((p_l .& 1) .<< 21)).
(* qtlib/ppc-opc.c:3145 *)
Definition m_XLRAND_MASK : N := (m_XRARB_MASK .& (bnot (3 .<< 16))).
(* qtlib/ppc.h:203 *)
Definition m_PPC_OPCODE_7450 : N := 0x4000000000.
(* qtlib/ppc-opc.c:3460 *)
Definition m_PPC7450 : N := m_PPC_OPCODE_7450.
(* qtlib/ppc.h:85 *)
Definition m_PPC_OPCODE_POWER2 : N := 0x4.
(* qtlib/ppc-opc.c:3470 *)
Definition m_POWER2 : N := (m_PPC_OPCODE_POWER .| m_PPC_OPCODE_POWER2).
(* qtlib/ppc-opc.c:3313 *)
Definition m_XS (p_op : N) (p_xop : N) (p_rc : N) : N := (((m_OP p_op) .| ((p_xop .& 0x1ff) .<< 2)) .| (p_rc .& 1)).
(* qtlib/ppc-opc.c:3317 *)
Definition m_XS_MASK : N := (m_XS 0x3f 0x1ff 1).
(* qtlib/ppc-opc.c:3123 *)
Definition m_XWRA_MASK : N := (m_XRA_MASK .& (bnot (1 .<< 16))).
(* qtlib/ppc-opc.c:3124 *)
Definition m_XRLA_MASK : N := m_XWRA_MASK.
(* qtlib/ppc-opc.c:3289 *)
Definition m_XMBAR (p_op : N) (p_xop : N) (p_mo : N) : N := ((m_X p_op p_xop) .| ((p_mo .& 1) .<< 21)).
(* qtlib/ppc-opc.c:3151 *)
Definition m_XRTRB_MASK : N := ((m_X_MASK .| m_RT_MASK) .| m_RB_MASK).
(* qtlib/ppc-opc.c:3174 *)
Definition m_XOPL2 (p_op : N) (p_xop : N) (p_l : N) : N := ((m_X p_op p_xop) .| ((p_l .& 3) .<< 21)).
(* qtlib/ppc-opc.c:3208 *)
Definition m_XTLB (p_op : N) (p_xop : N) (p_sh : N) : N := ((m_X p_op p_xop) .| ((p_sh .& 0x1f) .<< 11)).
(* qtlib/ppc-opc.c:3211 *)
Definition m_XTLB_MASK : N := (m_X_MASK .| m_SH_MASK).
(* qtlib/ppc-opc.c:2770 *)
Definition m_DSO (p_op : N) (p_xop : N) : N := ((m_OP p_op) .| (p_xop .& 0x3)).
(* qtlib/ppc-opc.c:2771 *)
Definition m_DS_MASK : N := (m_DSO 0x3f 3).
(* qtlib/ppc-opc.c:2656 *)
Definition m_AFRALFRC_MASK : N := (m_AFRAFRC_MASK .& (bnot (1 .<< 16))).
(* qtlib/ppc-opc.c:3115 *)
Definition m_Z_MASK : N := (m_ZRC 0x3f 0x1ff 1).
(* qtlib/ppc-opc.c:3028 *)
Definition m_XX3 (p_op : N) (p_xop : N) : N := ((m_OP p_op) .| ((p_xop .& 0xff) .<< 3)).
(* qtlib/ppc-opc.c:3094 *)
Definition m_XX3_MASK : N := (m_XX3 0x3f 0xff).
(* qtlib/ppc-opc.c:3101 *)
Definition m_XX3DM_MASK : N := ((m_XX3 0x3f 0x1f) .| (1 .<< 10)).
(* qtlib/ppc-opc.c:3102 *)
Definition m_XX3SHW_MASK : N := m_XX3DM_MASK.
(* qtlib/ppc-opc.c:3022 *)
Definition m_XX2 (p_op : N) (p_xop : N) : N := ((m_OP p_op) .| ((p_xop .& 0x1ff) .<< 2)).
(* qtlib/ppc-opc.c:3074 *)
Definition m_XX2_MASK : N := ((m_XX2 0x3f 0x1ff) .| (0x1f .<< 16)).
(* qtlib/ppc-opc.c:3037 *)
Definition m_XX4 (p_op : N) (p_xop : N) : N := ((m_OP p_op) .| ((p_xop .& 0x3) .<< 4)).
(* qtlib/ppc-opc.c:3105 *)
Definition m_XX4_MASK : N := (m_XX4 0x3f 0x3).
(* qtlib/ppc-opc.c:3097 *)
Definition m_XX3BF_MASK : N := (((m_XX3 0x3f 0xff) .| (3 .<< 21)) .| 1).
(* qtlib/ppc-opc.c:3083 *)
Definition m_XX2BF_MASK : N := ((m_XX2_MASK .| (3 .<< 21)) .| 1).
(* qtlib/ppc-opc.c:3031 *)
Definition m_XX3RC (p_op : N) (p_xop : N) (p_rc : N) : N := (((m_OP p_op) .| ((p_rc .& 1) .<< 10)) .| ((p_xop .& 0x7f) .<< 3)).
(* qtlib/ppc-opc.c:3077 *)
Definition m_XX2UIM_MASK : N := ((m_XX2 0x3f 0x1ff) .| (7 .<< 18)).
(* qtlib/ppc-opc.c:3080 *)
Definition m_XX2UIM4_MASK : N := ((m_XX2 0x3f 0x1ff) .| (1 .<< 20)).
(* qtlib/ppc-opc.c:3087 *)
Definition m_XX2BFD_MASK : N := ((m_XX2 0x3f 0x1ff) .| 1).
(* qtlib/ppc-opc.c:3025 *)
Definition m_XX2VA (p_op : N) (p_xop : N) (p_vaop : N) : N := ((m_XX2 p_op p_xop) .| ((p_vaop .& 0x1f) .<< 16)).
(* qtlib/ppc-opc.c:3091 *)
Definition m_XX2DCMXS_MASK : N := (m_XX2 0x3f 0x1ee).
(* qtlib/ppc-opc.c:2766 *)
Definition m_DQX (p_op : N) (p_xop : N) : N := ((m_OP p_op) .| (p_xop .& 0x7)).
(* qtlib/ppc-opc.c:2767 *)
Definition m_DQX_MASK : N := (m_DQX 0x3f 7).
(* qtlib/ppc-opc.c:3471 *)
Definition m_PWR2COM : N := ((m_PPC_OPCODE_POWER .| m_PPC_OPCODE_POWER2) .| m_PPC_OPCODE_COMMON).
(* qtlib/ppc-opc.c:3472 *)
Definition m_PPCPWR2 : N := (((m_PPC_OPCODE_PPC .| m_PPC_OPCODE_POWER) .| m_PPC_OPCODE_POWER2) .| m_PPC_OPCODE_COMMON).
(* qtlib/ppc-opc.c:3049 *)
Definition m_XMMF (p_op : N) (p_xop : N) (p_mop0 : N) (p_mop1 : N) : N := (((m_X p_op p_xop) .| ((p_mop0 .& 3) .<< 19)) .| ((p_mop1 .& 7) .<< 16)).
(* qtlib/ppc-opc.c:3112 *)
Definition m_XMMF_MASK : N := ((m_XMMF 0x3f 0x3ff 3 7) .| 1).
(* qtlib/ppc-opc.c:3234 *)
Definition m_XFL (p_op : N) (p_xop : N) (p_rc : N) : N := (((m_OP p_op) .| ((p_xop .& 0x3ff) .<< 1)) .| (p_rc .& 1)).
(* qtlib/ppc-opc.c:3238 *)
Definition m_XFL_MASK : N := (m_XFL 0x3f 0x3ff 1).
(* qtlib/ppc-opc.c:3013 *)
Definition m_XVA (p_op : N) (p_xop : N) (p_vaop : N) : N := ((m_X p_op p_xop) .| ((p_vaop .& 0x1f) .<< 16)).
(* qtlib/ppc-opc.c:3120 *)
Definition m_XVA_MASK : N := m_XRA_MASK.
(* qtlib/ppc-opc.c:3046 *)
Definition m_XVARC (p_op : N) (p_xop : N) (p_vaop : N) (p_rc : N) : N := ((m_XVA p_op p_xop p_vaop) .| (p_rc .& 1)).

(* qtlib/ppcstats.c:55-58 *)
Definition dialect : N :=
  m_PPC_OPCODE_PPC .| m_PPC_OPCODE_ISEL .| m_PPC_OPCODE_64
  .| m_PPC_OPCODE_POWER4 .| m_PPC_OPCODE_POWER5 .| m_PPC_OPCODE_POWER6
  .| m_PPC_OPCODE_POWER7 .| m_PPC_OPCODE_POWER8 .| m_PPC_OPCODE_POWER9
  .| m_PPC_OPCODE_ALTIVEC .| m_PPC_OPCODE_VSX.

(** ** Entries *)
(* qtlib/ppc-opc.c:3533-3634 *)
Definition opcodes_00 : list opcode := [
  mk_opcode "attn" (m_X 0 256) m_X_MASK (m_POWER4 .| m_PPCA2) (m_PPC476 .| m_PPCVLE);
  mk_opcode "tdlgti" (m_OPTO 2 m_TOLGT) m_OPTO_MASK m_PPC64 m_PPCVLE;
  mk_opcode "tdllti" (m_OPTO 2 m_TOLLT) m_OPTO_MASK m_PPC64 m_PPCVLE;
  mk_opcode "tdeqi" (m_OPTO 2 m_TOEQ) m_OPTO_MASK m_PPC64 m_PPCVLE;
  mk_opcode "tdlgei" (m_OPTO 2 m_TOLGE) m_OPTO_MASK m_PPC64 m_PPCVLE;
  mk_opcode "tdlnli" (m_OPTO 2 m_TOLNL) m_OPTO_MASK m_PPC64 m_PPCVLE;
  mk_opcode "tdllei" (m_OPTO 2 m_TOLLE) m_OPTO_MASK m_PPC64 m_PPCVLE;
  mk_opcode "tdlngi" (m_OPTO 2 m_TOLNG) m_OPTO_MASK m_PPC64 m_PPCVLE;
  mk_opcode "tdgti" (m_OPTO 2 m_TOGT) m_OPTO_MASK m_PPC64 m_PPCVLE;
  mk_opcode "tdgei" (m_OPTO 2 m_TOGE) m_OPTO_MASK m_PPC64 m_PPCVLE;
  mk_opcode "tdnli" (m_OPTO 2 m_TONL) m_OPTO_MASK m_PPC64 m_PPCVLE;
  mk_opcode "tdlti" (m_OPTO 2 m_TOLT) m_OPTO_MASK m_PPC64 m_PPCVLE;
  mk_opcode "tdlei" (m_OPTO 2 m_TOLE) m_OPTO_MASK m_PPC64 m_PPCVLE;
  mk_opcode "tdngi" (m_OPTO 2 m_TONG) m_OPTO_MASK m_PPC64 m_PPCVLE;
  mk_opcode "tdnei" (m_OPTO 2 m_TONE) m_OPTO_MASK m_PPC64 m_PPCVLE;
  mk_opcode "tdui" (m_OPTO 2 m_TOU) m_OPTO_MASK m_PPC64 m_PPCVLE;
  mk_opcode "tdi" (m_OP 2) m_OP_MASK m_PPC64 m_PPCVLE;
  mk_opcode "twlgti" (m_OPTO 3 m_TOLGT) m_OPTO_MASK m_PPCCOM m_PPCVLE;
  mk_opcode "tlgti" (m_OPTO 3 m_TOLGT) m_OPTO_MASK m_PWRCOM m_PPCVLE;
  mk_opcode "twllti" (m_OPTO 3 m_TOLLT) m_OPTO_MASK m_PPCCOM m_PPCVLE;
  mk_opcode "tllti" (m_OPTO 3 m_TOLLT) m_OPTO_MASK m_PWRCOM m_PPCVLE;
  mk_opcode "tweqi" (m_OPTO 3 m_TOEQ) m_OPTO_MASK m_PPCCOM m_PPCVLE;
  mk_opcode "teqi" (m_OPTO 3 m_TOEQ) m_OPTO_MASK m_PWRCOM m_PPCVLE;
  mk_opcode "twlgei" (m_OPTO 3 m_TOLGE) m_OPTO_MASK m_PPCCOM m_PPCVLE;
  mk_opcode "tlgei" (m_OPTO 3 m_TOLGE) m_OPTO_MASK m_PWRCOM m_PPCVLE;
  mk_opcode "twlnli" (m_OPTO 3 m_TOLNL) m_OPTO_MASK m_PPCCOM m_PPCVLE;
  mk_opcode "tlnli" (m_OPTO 3 m_TOLNL) m_OPTO_MASK m_PWRCOM m_PPCVLE;
  mk_opcode "twllei" (m_OPTO 3 m_TOLLE) m_OPTO_MASK m_PPCCOM m_PPCVLE;
  mk_opcode "tllei" (m_OPTO 3 m_TOLLE) m_OPTO_MASK m_PWRCOM m_PPCVLE;
  mk_opcode "twlngi" (m_OPTO 3 m_TOLNG) m_OPTO_MASK m_PPCCOM m_PPCVLE;
  mk_opcode "tlngi" (m_OPTO 3 m_TOLNG) m_OPTO_MASK m_PWRCOM m_PPCVLE;
  mk_opcode "twgti" (m_OPTO 3 m_TOGT) m_OPTO_MASK m_PPCCOM m_PPCVLE;
  mk_opcode "tgti" (m_OPTO 3 m_TOGT) m_OPTO_MASK m_PWRCOM m_PPCVLE;
  mk_opcode "twgei" (m_OPTO 3 m_TOGE) m_OPTO_MASK m_PPCCOM m_PPCVLE;
  mk_opcode "tgei" (m_OPTO 3 m_TOGE) m_OPTO_MASK m_PWRCOM m_PPCVLE;
  mk_opcode "twnli" (m_OPTO 3 m_TONL) m_OPTO_MASK m_PPCCOM m_PPCVLE;
  mk_opcode "tnli" (m_OPTO 3 m_TONL) m_OPTO_MASK m_PWRCOM m_PPCVLE;
  mk_opcode "twlti" (m_OPTO 3 m_TOLT) m_OPTO_MASK m_PPCCOM m_PPCVLE;
  mk_opcode "tlti" (m_OPTO 3 m_TOLT) m_OPTO_MASK m_PWRCOM m_PPCVLE;
  mk_opcode "twlei" (m_OPTO 3 m_TOLE) m_OPTO_MASK m_PPCCOM m_PPCVLE;
  mk_opcode "tlei" (m_OPTO 3 m_TOLE) m_OPTO_MASK m_PWRCOM m_PPCVLE;
  mk_opcode "twngi" (m_OPTO 3 m_TONG) m_OPTO_MASK m_PPCCOM m_PPCVLE;
  mk_opcode "tngi" (m_OPTO 3 m_TONG) m_OPTO_MASK m_PWRCOM m_PPCVLE;
  mk_opcode "twnei" (m_OPTO 3 m_TONE) m_OPTO_MASK m_PPCCOM m_PPCVLE;
  mk_opcode "tnei" (m_OPTO 3 m_TONE) m_OPTO_MASK m_PWRCOM m_PPCVLE;
  mk_opcode "twui" (m_OPTO 3 m_TOU) m_OPTO_MASK m_PPCCOM m_PPCVLE;
  mk_opcode "tui" (m_OPTO 3 m_TOU) m_OPTO_MASK m_PWRCOM m_PPCVLE;
  mk_opcode "twi" (m_OP 3) m_OP_MASK m_PPCCOM m_PPCVLE;
  mk_opcode "ti" (m_OP 3) m_OP_MASK m_PWRCOM m_PPCVLE;
  mk_opcode "ps_cmpu0" (m_X 4 0) m_XBF_MASK m_PPCPS 0;
  mk_opcode "vaddubm" (m_VX 4 0) m_VX_MASK m_PPCVEC 0;
  mk_opcode "vmul10cuq" (m_VX 4 1) m_VXVB_MASK m_PPCVEC3 0;
  mk_opcode "vmaxub" (m_VX 4 2) m_VX_MASK m_PPCVEC 0;
  mk_opcode "vrlb" (m_VX 4 4) m_VX_MASK m_PPCVEC 0;
  mk_opcode "vcmpequb" (m_VXR 4 6 0) m_VXR_MASK m_PPCVEC 0;
  mk_opcode "vcmpneb" (m_VXR 4 7 0) m_VXR_MASK m_PPCVEC3 0;
  mk_opcode "vmuloub" (m_VX 4 8) m_VX_MASK m_PPCVEC 0;
  mk_opcode "vaddfp" (m_VX 4 10) m_VX_MASK m_PPCVEC 0;
  mk_opcode "psq_lx" (m_XW 4 6 0) m_XW_MASK m_PPCPS 0;
  mk_opcode "vmrghb" (m_VX 4 12) m_VX_MASK m_PPCVEC 0;
  mk_opcode "psq_stx" (m_XW 4 7 0) m_XW_MASK m_PPCPS 0;
  mk_opcode "vpkuhum" (m_VX 4 14) m_VX_MASK m_PPCVEC 0;
  mk_opcode "mulhhwu" (m_XRC 4 8 0) m_X_MASK m_MULHW 0;
  mk_opcode "mulhhwu." (m_XRC 4 8 1) m_X_MASK m_MULHW 0;
  mk_opcode "ps_sum0" (m_A 4 10 0) m_A_MASK m_PPCPS 0;
  mk_opcode "ps_sum0." (m_A 4 10 1) m_A_MASK m_PPCPS 0;
  mk_opcode "ps_sum1" (m_A 4 11 0) m_A_MASK m_PPCPS 0;
  mk_opcode "ps_sum1." (m_A 4 11 1) m_A_MASK m_PPCPS 0;
  mk_opcode "ps_muls0" (m_A 4 12 0) m_AFRB_MASK m_PPCPS 0;
  mk_opcode "machhwu" (m_XO 4 12 0 0) m_XO_MASK m_MULHW 0;
  mk_opcode "ps_muls0." (m_A 4 12 1) m_AFRB_MASK m_PPCPS 0;
  mk_opcode "machhwu." (m_XO 4 12 0 1) m_XO_MASK m_MULHW 0;
  mk_opcode "ps_muls1" (m_A 4 13 0) m_AFRB_MASK m_PPCPS 0;
  mk_opcode "ps_muls1." (m_A 4 13 1) m_AFRB_MASK m_PPCPS 0;
  mk_opcode "ps_madds0" (m_A 4 14 0) m_A_MASK m_PPCPS 0;
  mk_opcode "ps_madds0." (m_A 4 14 1) m_A_MASK m_PPCPS 0;
  mk_opcode "ps_madds1" (m_A 4 15 0) m_A_MASK m_PPCPS 0;
  mk_opcode "ps_madds1." (m_A 4 15 1) m_A_MASK m_PPCPS 0;
  mk_opcode "vmhaddshs" (m_VXA 4 32) m_VXA_MASK m_PPCVEC 0;
  mk_opcode "vmhraddshs" (m_VXA 4 33) m_VXA_MASK m_PPCVEC 0;
  mk_opcode "vmladduhm" (m_VXA 4 34) m_VXA_MASK m_PPCVEC 0;
  mk_opcode "vmsumudm" (m_VXA 4 35) m_VXA_MASK m_PPCVEC3 0;
  mk_opcode "ps_div" (m_A 4 18 0) m_AFRC_MASK m_PPCPS 0;
  mk_opcode "vmsumubm" (m_VXA 4 36) m_VXA_MASK m_PPCVEC 0;
  mk_opcode "ps_div." (m_A 4 18 1) m_AFRC_MASK m_PPCPS 0;
  mk_opcode "vmsummbm" (m_VXA 4 37) m_VXA_MASK m_PPCVEC 0;
  mk_opcode "vmsumuhm" (m_VXA 4 38) m_VXA_MASK m_PPCVEC 0;
  mk_opcode "vmsumuhs" (m_VXA 4 39) m_VXA_MASK m_PPCVEC 0;
  mk_opcode "ps_sub" (m_A 4 20 0) m_AFRC_MASK m_PPCPS 0;
  mk_opcode "vmsumshm" (m_VXA 4 40) m_VXA_MASK m_PPCVEC 0;
  mk_opcode "ps_sub." (m_A 4 20 1) m_AFRC_MASK m_PPCPS 0;
  mk_opcode "vmsumshs" (m_VXA 4 41) m_VXA_MASK m_PPCVEC 0;
  mk_opcode "ps_add" (m_A 4 21 0) m_AFRC_MASK m_PPCPS 0;
  mk_opcode "vsel" (m_VXA 4 42) m_VXA_MASK m_PPCVEC 0;
  mk_opcode "ps_add." (m_A 4 21 1) m_AFRC_MASK m_PPCPS 0;
  mk_opcode "vperm" (m_VXA 4 43) m_VXA_MASK m_PPCVEC 0;
  mk_opcode "vsldoi" (m_VXA 4 44) m_VXASHB_MASK m_PPCVEC 0;
  mk_opcode "vpermxor" (m_VXA 4 45) m_VXA_MASK m_PPCVEC2 0;
  mk_opcode "ps_sel" (m_A 4 23 0) m_A_MASK m_PPCPS 0;
  mk_opcode "vmaddfp" (m_VXA 4 46) m_VXA_MASK m_PPCVEC 0].
(* qtlib/ppc-opc.c:3635-3734 *)
Definition opcodes_01 : list opcode := [
  mk_opcode "ps_sel." (m_A 4 23 1) m_A_MASK m_PPCPS 0;
  mk_opcode "vnmsubfp" (m_VXA 4 47) m_VXA_MASK m_PPCVEC 0;
  mk_opcode "ps_res" (m_A 4 24 0) m_AFRAFRC_MASK m_PPCPS 0;
  mk_opcode "maddhd" (m_VXA 4 48) m_VXA_MASK m_POWER9 0;
  mk_opcode "ps_res." (m_A 4 24 1) m_AFRAFRC_MASK m_PPCPS 0;
  mk_opcode "maddhdu" (m_VXA 4 49) m_VXA_MASK m_POWER9 0;
  mk_opcode "ps_mul" (m_A 4 25 0) m_AFRB_MASK m_PPCPS 0;
  mk_opcode "ps_mul." (m_A 4 25 1) m_AFRB_MASK m_PPCPS 0;
  mk_opcode "maddld" (m_VXA 4 51) m_VXA_MASK m_POWER9 0;
  mk_opcode "ps_rsqrte" (m_A 4 26 0) m_AFRAFRC_MASK m_PPCPS 0;
  mk_opcode "ps_rsqrte." (m_A 4 26 1) m_AFRAFRC_MASK m_PPCPS 0;
  mk_opcode "ps_msub" (m_A 4 28 0) m_A_MASK m_PPCPS 0;
  mk_opcode "ps_msub." (m_A 4 28 1) m_A_MASK m_PPCPS 0;
  mk_opcode "ps_madd" (m_A 4 29 0) m_A_MASK m_PPCPS 0;
  mk_opcode "ps_madd." (m_A 4 29 1) m_A_MASK m_PPCPS 0;
  mk_opcode "vpermr" (m_VXA 4 59) m_VXA_MASK m_PPCVEC3 0;
  mk_opcode "ps_nmsub" (m_A 4 30 0) m_A_MASK m_PPCPS 0;
  mk_opcode "vaddeuqm" (m_VXA 4 60) m_VXA_MASK m_PPCVEC2 0;
  mk_opcode "ps_nmsub." (m_A 4 30 1) m_A_MASK m_PPCPS 0;
  mk_opcode "vaddecuq" (m_VXA 4 61) m_VXA_MASK m_PPCVEC2 0;
  mk_opcode "ps_nmadd" (m_A 4 31 0) m_A_MASK m_PPCPS 0;
  mk_opcode "vsubeuqm" (m_VXA 4 62) m_VXA_MASK m_PPCVEC2 0;
  mk_opcode "ps_nmadd." (m_A 4 31 1) m_A_MASK m_PPCPS 0;
  mk_opcode "vsubecuq" (m_VXA 4 63) m_VXA_MASK m_PPCVEC2 0;
  mk_opcode "ps_cmpo0" (m_X 4 32) m_XBF_MASK m_PPCPS 0;
  mk_opcode "vadduhm" (m_VX 4 64) m_VX_MASK m_PPCVEC 0;
  mk_opcode "vmul10ecuq" (m_VX 4 65) m_VX_MASK m_PPCVEC3 0;
  mk_opcode "vmaxuh" (m_VX 4 66) m_VX_MASK m_PPCVEC 0;
  mk_opcode "vrlh" (m_VX 4 68) m_VX_MASK m_PPCVEC 0;
  mk_opcode "vcmpequh" (m_VXR 4 70 0) m_VXR_MASK m_PPCVEC 0;
  mk_opcode "vcmpneh" (m_VXR 4 71 0) m_VXR_MASK m_PPCVEC3 0;
  mk_opcode "vmulouh" (m_VX 4 72) m_VX_MASK m_PPCVEC 0;
  mk_opcode "vsubfp" (m_VX 4 74) m_VX_MASK m_PPCVEC 0;
  mk_opcode "psq_lux" (m_XW 4 38 0) m_XW_MASK m_PPCPS 0;
  mk_opcode "vmrghh" (m_VX 4 76) m_VX_MASK m_PPCVEC 0;
  mk_opcode "psq_stux" (m_XW 4 39 0) m_XW_MASK m_PPCPS 0;
  mk_opcode "vpkuwum" (m_VX 4 78) m_VX_MASK m_PPCVEC 0;
  mk_opcode "ps_neg" (m_XRC 4 40 0) m_XRA_MASK m_PPCPS 0;
  mk_opcode "mulhhw" (m_XRC 4 40 0) m_X_MASK m_MULHW 0;
  mk_opcode "ps_neg." (m_XRC 4 40 1) m_XRA_MASK m_PPCPS 0;
  mk_opcode "mulhhw." (m_XRC 4 40 1) m_X_MASK m_MULHW 0;
  mk_opcode "machhw" (m_XO 4 44 0 0) m_XO_MASK m_MULHW 0;
  mk_opcode "machhw." (m_XO 4 44 0 1) m_XO_MASK m_MULHW 0;
  mk_opcode "nmachhw" (m_XO 4 46 0 0) m_XO_MASK m_MULHW 0;
  mk_opcode "nmachhw." (m_XO 4 46 0 1) m_XO_MASK m_MULHW 0;
  mk_opcode "ps_cmpu1" (m_X 4 64) m_XBF_MASK m_PPCPS 0;
  mk_opcode "vadduwm" (m_VX 4 128) m_VX_MASK m_PPCVEC 0;
  mk_opcode "vmaxuw" (m_VX 4 130) m_VX_MASK m_PPCVEC 0;
  mk_opcode "vrlw" (m_VX 4 132) m_VX_MASK m_PPCVEC 0;
  mk_opcode "vrlwmi" (m_VX 4 133) m_VX_MASK m_PPCVEC3 0;
  mk_opcode "vcmpequw" (m_VXR 4 134 0) m_VXR_MASK m_PPCVEC 0;
  mk_opcode "vcmpnew" (m_VXR 4 135 0) m_VXR_MASK m_PPCVEC3 0;
  mk_opcode "vmulouw" (m_VX 4 136) m_VX_MASK m_PPCVEC2 0;
  mk_opcode "vmuluwm" (m_VX 4 137) m_VX_MASK m_PPCVEC2 0;
  mk_opcode "vmrghw" (m_VX 4 140) m_VX_MASK m_PPCVEC 0;
  mk_opcode "vpkuhus" (m_VX 4 142) m_VX_MASK m_PPCVEC 0;
  mk_opcode "ps_mr" (m_XRC 4 72 0) m_XRA_MASK m_PPCPS 0;
  mk_opcode "ps_mr." (m_XRC 4 72 1) m_XRA_MASK m_PPCPS 0;
  mk_opcode "machhwsu" (m_XO 4 76 0 0) m_XO_MASK m_MULHW 0;
  mk_opcode "machhwsu." (m_XO 4 76 0 1) m_XO_MASK m_MULHW 0;
  mk_opcode "ps_cmpo1" (m_X 4 96) m_XBF_MASK m_PPCPS 0;
  mk_opcode "vaddudm" (m_VX 4 192) m_VX_MASK m_PPCVEC2 0;
  mk_opcode "vmaxud" (m_VX 4 194) m_VX_MASK m_PPCVEC2 0;
  mk_opcode "vrld" (m_VX 4 196) m_VX_MASK m_PPCVEC2 0;
  mk_opcode "vrldmi" (m_VX 4 197) m_VX_MASK m_PPCVEC3 0;
  mk_opcode "vcmpeqfp" (m_VXR 4 198 0) m_VXR_MASK m_PPCVEC 0;
  mk_opcode "vcmpequd" (m_VXR 4 199 0) m_VXR_MASK m_PPCVEC2 0;
  mk_opcode "vpkuwus" (m_VX 4 206) m_VX_MASK m_PPCVEC 0;
  mk_opcode "machhws" (m_XO 4 108 0 0) m_XO_MASK m_MULHW 0;
  mk_opcode "machhws." (m_XO 4 108 0 1) m_XO_MASK m_MULHW 0;
  mk_opcode "nmachhws" (m_XO 4 110 0 0) m_XO_MASK m_MULHW 0;
  mk_opcode "nmachhws." (m_XO 4 110 0 1) m_XO_MASK m_MULHW 0;
  mk_opcode "vadduqm" (m_VX 4 256) m_VX_MASK m_PPCVEC2 0;
  mk_opcode "vmaxsb" (m_VX 4 258) m_VX_MASK m_PPCVEC 0;
  mk_opcode "vslb" (m_VX 4 260) m_VX_MASK m_PPCVEC 0;
  mk_opcode "vcmpnezb" (m_VXR 4 263 0) m_VXR_MASK m_PPCVEC3 0;
  mk_opcode "vmulosb" (m_VX 4 264) m_VX_MASK m_PPCVEC 0;
  mk_opcode "vrefp" (m_VX 4 266) m_VXVA_MASK m_PPCVEC 0;
  mk_opcode "vmrglb" (m_VX 4 268) m_VX_MASK m_PPCVEC 0;
  mk_opcode "vpkshus" (m_VX 4 270) m_VX_MASK m_PPCVEC 0;
  mk_opcode "ps_nabs" (m_XRC 4 136 0) m_XRA_MASK m_PPCPS 0;
  mk_opcode "mulchwu" (m_XRC 4 136 0) m_X_MASK m_MULHW 0;
  mk_opcode "ps_nabs." (m_XRC 4 136 1) m_XRA_MASK m_PPCPS 0;
  mk_opcode "mulchwu." (m_XRC 4 136 1) m_X_MASK m_MULHW 0;
  mk_opcode "macchwu" (m_XO 4 140 0 0) m_XO_MASK m_MULHW 0;
  mk_opcode "macchwu." (m_XO 4 140 0 1) m_XO_MASK m_MULHW 0;
  mk_opcode "vaddcuq" (m_VX 4 320) m_VX_MASK m_PPCVEC2 0;
  mk_opcode "vmaxsh" (m_VX 4 322) m_VX_MASK m_PPCVEC 0;
  mk_opcode "vslh" (m_VX 4 324) m_VX_MASK m_PPCVEC 0;
  mk_opcode "vcmpnezh" (m_VXR 4 327 0) m_VXR_MASK m_PPCVEC3 0;
  mk_opcode "vmulosh" (m_VX 4 328) m_VX_MASK m_PPCVEC 0;
  mk_opcode "vrsqrtefp" (m_VX 4 330) m_VXVA_MASK m_PPCVEC 0;
  mk_opcode "vmrglh" (m_VX 4 332) m_VX_MASK m_PPCVEC 0;
  mk_opcode "vpkswus" (m_VX 4 334) m_VX_MASK m_PPCVEC 0;
  mk_opcode "mulchw" (m_XRC 4 168 0) m_X_MASK m_MULHW 0;
  mk_opcode "mulchw." (m_XRC 4 168 1) m_X_MASK m_MULHW 0;
  mk_opcode "macchw" (m_XO 4 172 0 0) m_XO_MASK m_MULHW 0;
  mk_opcode "macchw." (m_XO 4 172 0 1) m_XO_MASK m_MULHW 0;
  mk_opcode "nmacchw" (m_XO 4 174 0 0) m_XO_MASK m_MULHW 0;
  mk_opcode "nmacchw." (m_XO 4 174 0 1) m_XO_MASK m_MULHW 0].
(* qtlib/ppc-opc.c:3735-3834 *)
Definition opcodes_02 : list opcode := [
  mk_opcode "vaddcuw" (m_VX 4 384) m_VX_MASK m_PPCVEC 0;
  mk_opcode "vmaxsw" (m_VX 4 386) m_VX_MASK m_PPCVEC 0;
  mk_opcode "vslw" (m_VX 4 388) m_VX_MASK m_PPCVEC 0;
  mk_opcode "vrlwnm" (m_VX 4 389) m_VX_MASK m_PPCVEC3 0;
  mk_opcode "vcmpnezw" (m_VXR 4 391 0) m_VXR_MASK m_PPCVEC3 0;
  mk_opcode "vmulosw" (m_VX 4 392) m_VX_MASK m_PPCVEC2 0;
  mk_opcode "vexptefp" (m_VX 4 394) m_VXVA_MASK m_PPCVEC 0;
  mk_opcode "vmrglw" (m_VX 4 396) m_VX_MASK m_PPCVEC 0;
  mk_opcode "vpkshss" (m_VX 4 398) m_VX_MASK m_PPCVEC 0;
  mk_opcode "macchwsu" (m_XO 4 204 0 0) m_XO_MASK m_MULHW 0;
  mk_opcode "macchwsu." (m_XO 4 204 0 1) m_XO_MASK m_MULHW 0;
  mk_opcode "vmaxsd" (m_VX 4 450) m_VX_MASK m_PPCVEC2 0;
  mk_opcode "vsl" (m_VX 4 452) m_VX_MASK m_PPCVEC 0;
  mk_opcode "vrldnm" (m_VX 4 453) m_VX_MASK m_PPCVEC3 0;
  mk_opcode "vcmpgefp" (m_VXR 4 454 0) m_VXR_MASK m_PPCVEC 0;
  mk_opcode "vlogefp" (m_VX 4 458) m_VXVA_MASK m_PPCVEC 0;
  mk_opcode "vpkswss" (m_VX 4 462) m_VX_MASK m_PPCVEC 0;
  mk_opcode "macchws" (m_XO 4 236 0 0) m_XO_MASK m_MULHW 0;
  mk_opcode "macchws." (m_XO 4 236 0 1) m_XO_MASK m_MULHW 0;
  mk_opcode "nmacchws" (m_XO 4 238 0 0) m_XO_MASK m_MULHW 0;
  mk_opcode "nmacchws." (m_XO 4 238 0 1) m_XO_MASK m_MULHW 0;
  mk_opcode "evaddw" (m_VX 4 512) m_VX_MASK m_PPCSPE 0;
  mk_opcode "vaddubs" (m_VX 4 512) m_VX_MASK m_PPCVEC 0;
  mk_opcode "vmul10uq" (m_VX 4 513) m_VXVB_MASK m_PPCVEC3 0;
  mk_opcode "evaddiw" (m_VX 4 514) m_VX_MASK m_PPCSPE 0;
  mk_opcode "vminub" (m_VX 4 514) m_VX_MASK m_PPCVEC 0;
  mk_opcode "evsubfw" (m_VX 4 516) m_VX_MASK m_PPCSPE 0;
  mk_opcode "evsubw" (m_VX 4 516) m_VX_MASK m_PPCSPE 0;
  mk_opcode "vsrb" (m_VX 4 516) m_VX_MASK m_PPCVEC 0;
  mk_opcode "evsubifw" (m_VX 4 518) m_VX_MASK m_PPCSPE 0;
  mk_opcode "evsubiw" (m_VX 4 518) m_VX_MASK m_PPCSPE 0;
  mk_opcode "vcmpgtub" (m_VXR 4 518 0) m_VXR_MASK m_PPCVEC 0;
  mk_opcode "evabs" (m_VX 4 520) m_VX_MASK m_PPCSPE 0;
  mk_opcode "vmuleub" (m_VX 4 520) m_VX_MASK m_PPCVEC 0;
  mk_opcode "evneg" (m_VX 4 521) m_VX_MASK m_PPCSPE 0;
  mk_opcode "evextsb" (m_VX 4 522) m_VX_MASK m_PPCSPE 0;
  mk_opcode "vrfin" (m_VX 4 522) m_VXVA_MASK m_PPCVEC 0;
  mk_opcode "evextsh" (m_VX 4 523) m_VX_MASK m_PPCSPE 0;
  mk_opcode "evrndw" (m_VX 4 524) m_VX_MASK m_PPCSPE 0;
  mk_opcode "vspltb" (m_VX 4 524) m_VXUIMM4_MASK m_PPCVEC 0;
  mk_opcode "vextractub" (m_VX 4 525) m_VXUIMM4_MASK m_PPCVEC3 0;
  mk_opcode "evcntlzw" (m_VX 4 525) m_VX_MASK m_PPCSPE 0;
  mk_opcode "evcntlsw" (m_VX 4 526) m_VX_MASK m_PPCSPE 0;
  mk_opcode "vupkhsb" (m_VX 4 526) m_VXVA_MASK m_PPCVEC 0;
  mk_opcode "brinc" (m_VX 4 527) m_VX_MASK m_PPCSPE 0;
  mk_opcode "ps_abs" (m_XRC 4 264 0) m_XRA_MASK m_PPCPS 0;
  mk_opcode "ps_abs." (m_XRC 4 264 1) m_XRA_MASK m_PPCPS 0;
  mk_opcode "evand" (m_VX 4 529) m_VX_MASK m_PPCSPE 0;
  mk_opcode "evandc" (m_VX 4 530) m_VX_MASK m_PPCSPE 0;
  mk_opcode "evxor" (m_VX 4 534) m_VX_MASK m_PPCSPE 0;
  mk_opcode "evmr" (m_VX 4 535) m_VX_MASK m_PPCSPE 0;
  mk_opcode "evor" (m_VX 4 535) m_VX_MASK m_PPCSPE 0;
  mk_opcode "evnot" (m_VX 4 536) m_VX_MASK m_PPCSPE 0;
  mk_opcode "evnor" (m_VX 4 536) m_VX_MASK m_PPCSPE 0;
  mk_opcode "get" (m_APU 4 268 0) m_APU_RA_MASK m_PPC405 0;
  mk_opcode "eveqv" (m_VX 4 537) m_VX_MASK m_PPCSPE 0;
  mk_opcode "evorc" (m_VX 4 539) m_VX_MASK m_PPCSPE 0;
  mk_opcode "evnand" (m_VX 4 542) m_VX_MASK m_PPCSPE 0;
  mk_opcode "evsrwu" (m_VX 4 544) m_VX_MASK m_PPCSPE 0;
  mk_opcode "evsrws" (m_VX 4 545) m_VX_MASK m_PPCSPE 0;
  mk_opcode "evsrwiu" (m_VX 4 546) m_VX_MASK m_PPCSPE 0;
  mk_opcode "evsrwis" (m_VX 4 547) m_VX_MASK m_PPCSPE 0;
  mk_opcode "evslw" (m_VX 4 548) m_VX_MASK m_PPCSPE 0;
  mk_opcode "evslwi" (m_VX 4 550) m_VX_MASK m_PPCSPE 0;
  mk_opcode "evrlw" (m_VX 4 552) m_VX_MASK m_PPCSPE 0;
  mk_opcode "evsplati" (m_VX 4 553) m_VX_MASK m_PPCSPE 0;
  mk_opcode "evrlwi" (m_VX 4 554) m_VX_MASK m_PPCSPE 0;
  mk_opcode "evsplatfi" (m_VX 4 555) m_VX_MASK m_PPCSPE 0;
  mk_opcode "evmergehi" (m_VX 4 556) m_VX_MASK m_PPCSPE 0;
  mk_opcode "evmergelo" (m_VX 4 557) m_VX_MASK m_PPCSPE 0;
  mk_opcode "evmergehilo" (m_VX 4 558) m_VX_MASK m_PPCSPE 0;
  mk_opcode "evmergelohi" (m_VX 4 559) m_VX_MASK m_PPCSPE 0;
  mk_opcode "evcmpgtu" (m_VX 4 560) m_VX_MASK m_PPCSPE 0;
  mk_opcode "evcmpgts" (m_VX 4 561) m_VX_MASK m_PPCSPE 0;
  mk_opcode "evcmpltu" (m_VX 4 562) m_VX_MASK m_PPCSPE 0;
  mk_opcode "evcmplts" (m_VX 4 563) m_VX_MASK m_PPCSPE 0;
  mk_opcode "evcmpeq" (m_VX 4 564) m_VX_MASK m_PPCSPE 0;
  mk_opcode "cget" (m_APU 4 284 0) m_APU_RA_MASK m_PPC405 0;
  mk_opcode "vadduhs" (m_VX 4 576) m_VX_MASK m_PPCVEC 0;
  mk_opcode "vmul10euq" (m_VX 4 577) m_VX_MASK m_PPCVEC3 0;
  mk_opcode "vminuh" (m_VX 4 578) m_VX_MASK m_PPCVEC 0;
  mk_opcode "vsrh" (m_VX 4 580) m_VX_MASK m_PPCVEC 0;
  mk_opcode "vcmpgtuh" (m_VXR 4 582 0) m_VXR_MASK m_PPCVEC 0;
  mk_opcode "vmuleuh" (m_VX 4 584) m_VX_MASK m_PPCVEC 0;
  mk_opcode "vrfiz" (m_VX 4 586) m_VXVA_MASK m_PPCVEC 0;
  mk_opcode "vsplth" (m_VX 4 588) m_VXUIMM3_MASK m_PPCVEC 0;
  mk_opcode "vextractuh" (m_VX 4 589) m_VXUIMM4_MASK m_PPCVEC3 0;
  mk_opcode "vupkhsh" (m_VX 4 590) m_VXVA_MASK m_PPCVEC 0;
  mk_opcode "nget" (m_APU 4 300 0) m_APU_RA_MASK m_PPC405 0;
  mk_opcode "evsel" (m_EVSEL 4 79) m_EVSEL_MASK m_PPCSPE 0;
  mk_opcode "ncget" (m_APU 4 316 0) m_APU_RA_MASK m_PPC405 0;
  mk_opcode "evfsadd" (m_VX 4 640) m_VX_MASK m_PPCSPE 0;
  mk_opcode "vadduws" (m_VX 4 640) m_VX_MASK m_PPCVEC 0;
  mk_opcode "evfssub" (m_VX 4 641) m_VX_MASK m_PPCSPE 0;
  mk_opcode "evfsmadd" (m_VX 4 642) m_VX_MASK m_PPCSPE 0;
  mk_opcode "vminuw" (m_VX 4 642) m_VX_MASK m_PPCVEC 0;
  mk_opcode "evfsmsub" (m_VX 4 643) m_VX_MASK m_PPCSPE 0;
  mk_opcode "evfsabs" (m_VX 4 644) m_VX_MASK m_PPCSPE 0;
  mk_opcode "vsrw" (m_VX 4 644) m_VX_MASK m_PPCVEC 0;
  mk_opcode "evfsnabs" (m_VX 4 645) m_VX_MASK m_PPCSPE 0].
(* qtlib/ppc-opc.c:3835-3934 *)
Definition opcodes_03 : list opcode := [
  mk_opcode "evfsneg" (m_VX 4 646) m_VX_MASK m_PPCSPE 0;
  mk_opcode "vcmpgtuw" (m_VXR 4 646 0) m_VXR_MASK m_PPCVEC 0;
  mk_opcode "evfssqrt" (m_VX_RB_CONST 4 647 0) m_VX_RB_CONST_MASK m_PPCEFS2 0;
  mk_opcode "vmuleuw" (m_VX 4 648) m_VX_MASK m_PPCVEC2 0;
  mk_opcode "evfsmul" (m_VX 4 648) m_VX_MASK m_PPCSPE 0;
  mk_opcode "evfsdiv" (m_VX 4 649) m_VX_MASK m_PPCSPE 0;
  mk_opcode "evfsnmadd" (m_VX 4 650) m_VX_MASK m_PPCSPE 0;
  mk_opcode "vrfip" (m_VX 4 650) m_VXVA_MASK m_PPCVEC 0;
  mk_opcode "evfsnmsub" (m_VX 4 651) m_VX_MASK m_PPCSPE 0;
  mk_opcode "evfscmpgt" (m_VX 4 652) m_VX_MASK m_PPCSPE 0;
  mk_opcode "vspltw" (m_VX 4 652) m_VXUIMM2_MASK m_PPCVEC 0;
  mk_opcode "vextractuw" (m_VX 4 653) m_VXUIMM4_MASK m_PPCVEC3 0;
  mk_opcode "evfscmplt" (m_VX 4 653) m_VX_MASK m_PPCSPE 0;
  mk_opcode "evfscmpeq" (m_VX 4 654) m_VX_MASK m_PPCSPE 0;
  mk_opcode "vupklsb" (m_VX 4 654) m_VXVA_MASK m_PPCVEC 0;
  mk_opcode "evfscfui" (m_VX 4 656) m_VX_MASK m_PPCSPE 0;
  mk_opcode "evfscfh" (m_VX_RA_CONST 4 657 4) m_VX_RA_CONST_MASK m_PPCEFS2 0;
  mk_opcode "evfscfsi" (m_VX 4 657) m_VX_MASK m_PPCSPE 0;
  mk_opcode "evfscfuf" (m_VX 4 658) m_VX_MASK m_PPCSPE 0;
  mk_opcode "evfscfsf" (m_VX 4 659) m_VX_MASK m_PPCSPE 0;
  mk_opcode "evfsctui" (m_VX 4 660) m_VX_MASK m_PPCSPE 0;
  mk_opcode "evfscth" (m_VX_RA_CONST 4 661 4) m_VX_RA_CONST_MASK m_PPCEFS2 0;
  mk_opcode "evfsctsi" (m_VX 4 661) m_VX_MASK m_PPCSPE 0;
  mk_opcode "evfsctuf" (m_VX 4 662) m_VX_MASK m_PPCSPE 0;
  mk_opcode "evfsctsf" (m_VX 4 663) m_VX_MASK m_PPCSPE 0;
  mk_opcode "evfsctuiz" (m_VX 4 664) m_VX_MASK m_PPCSPE 0;
  mk_opcode "put" (m_APU 4 332 0) m_APU_RT_MASK m_PPC405 0;
  mk_opcode "evfsctsiz" (m_VX 4 666) m_VX_MASK m_PPCSPE 0;
  mk_opcode "evfststgt" (m_VX 4 668) m_VX_MASK m_PPCSPE 0;
  mk_opcode "evfststlt" (m_VX 4 669) m_VX_MASK m_PPCSPE 0;
  mk_opcode "evfststeq" (m_VX 4 670) m_VX_MASK m_PPCSPE 0;
  mk_opcode "evfsmax" (m_VX 4 672) m_VX_MASK m_PPCEFS2 0;
  mk_opcode "evfsmin" (m_VX 4 673) m_VX_MASK m_PPCEFS2 0;
  mk_opcode "evfsaddsub" (m_VX 4 674) m_VX_MASK m_PPCEFS2 0;
  mk_opcode "evfssubadd" (m_VX 4 675) m_VX_MASK m_PPCEFS2 0;
  mk_opcode "evfssum" (m_VX 4 676) m_VX_MASK m_PPCEFS2 0;
  mk_opcode "evfsdiff" (m_VX 4 677) m_VX_MASK m_PPCEFS2 0;
  mk_opcode "evfssumdiff" (m_VX 4 678) m_VX_MASK m_PPCEFS2 0;
  mk_opcode "evfsdiffsum" (m_VX 4 679) m_VX_MASK m_PPCEFS2 0;
  mk_opcode "evfsaddx" (m_VX 4 680) m_VX_MASK m_PPCEFS2 0;
  mk_opcode "evfssubx" (m_VX 4 681) m_VX_MASK m_PPCEFS2 0;
  mk_opcode "evfsaddsubx" (m_VX 4 682) m_VX_MASK m_PPCEFS2 0;
  mk_opcode "evfssubaddx" (m_VX 4 683) m_VX_MASK m_PPCEFS2 0;
  mk_opcode "evfsmulx" (m_VX 4 684) m_VX_MASK m_PPCEFS2 0;
  mk_opcode "evfsmule" (m_VX 4 686) m_VX_MASK m_PPCEFS2 0;
  mk_opcode "evfsmulo" (m_VX 4 687) m_VX_MASK m_PPCEFS2 0;
  mk_opcode "efsmax" (m_VX 4 688) m_VX_MASK m_PPCEFS2 0;
  mk_opcode "efsmin" (m_VX 4 689) m_VX_MASK m_PPCEFS2 0;
  mk_opcode "efdmax" (m_VX 4 696) m_VX_MASK m_PPCEFS2 0;
  mk_opcode "cput" (m_APU 4 348 0) m_APU_RT_MASK m_PPC405 0;
  mk_opcode "efdmin" (m_VX 4 697) m_VX_MASK m_PPCEFS2 0;
  mk_opcode "efsadd" (m_VX 4 704) m_VX_MASK m_PPCEFS 0;
  mk_opcode "efssub" (m_VX 4 705) m_VX_MASK m_PPCEFS 0;
  mk_opcode "efsmadd" (m_VX 4 706) m_VX_MASK m_PPCEFS2 0;
  mk_opcode "vminud" (m_VX 4 706) m_VX_MASK m_PPCVEC2 0;
  mk_opcode "efsmsub" (m_VX 4 707) m_VX_MASK m_PPCEFS2 0;
  mk_opcode "efsabs" (m_VX 4 708) m_VX_MASK m_PPCEFS 0;
  mk_opcode "vsr" (m_VX 4 708) m_VX_MASK m_PPCVEC 0;
  mk_opcode "efsnabs" (m_VX 4 709) m_VX_MASK m_PPCEFS 0;
  mk_opcode "efsneg" (m_VX 4 710) m_VX_MASK m_PPCEFS 0;
  mk_opcode "vcmpgtfp" (m_VXR 4 710 0) m_VXR_MASK m_PPCVEC 0;
  mk_opcode "efssqrt" (m_VX_RB_CONST 4 711 0) m_VX_RB_CONST_MASK m_PPCEFS2 0;
  mk_opcode "vcmpgtud" (m_VXR 4 711 0) m_VXR_MASK m_PPCVEC2 0;
  mk_opcode "efsmul" (m_VX 4 712) m_VX_MASK m_PPCEFS 0;
  mk_opcode "efsdiv" (m_VX 4 713) m_VX_MASK m_PPCEFS 0;
  mk_opcode "efsnmadd" (m_VX 4 714) m_VX_MASK m_PPCEFS2 0;
  mk_opcode "vrfim" (m_VX 4 714) m_VXVA_MASK m_PPCVEC 0;
  mk_opcode "efsnmsub" (m_VX 4 715) m_VX_MASK m_PPCEFS2 0;
  mk_opcode "efscmpgt" (m_VX 4 716) m_VX_MASK m_PPCEFS 0;
  mk_opcode "vextractd" (m_VX 4 717) m_VXUIMM4_MASK m_PPCVEC3 0;
  mk_opcode "efscmplt" (m_VX 4 717) m_VX_MASK m_PPCEFS 0;
  mk_opcode "efscmpeq" (m_VX 4 718) m_VX_MASK m_PPCEFS 0;
  mk_opcode "vupklsh" (m_VX 4 718) m_VXVA_MASK m_PPCVEC 0;
  mk_opcode "efscfd" (m_VX 4 719) m_VX_MASK m_PPCEFS 0;
  mk_opcode "efscfui" (m_VX 4 720) m_VX_MASK m_PPCEFS 0;
  mk_opcode "efscfh" (m_VX_RA_CONST 4 721 4) m_VX_RA_CONST_MASK m_PPCEFS2 0;
  mk_opcode "efscfsi" (m_VX 4 721) m_VX_MASK m_PPCEFS 0;
  mk_opcode "efscfuf" (m_VX 4 722) m_VX_MASK m_PPCEFS 0;
  mk_opcode "efscfsf" (m_VX 4 723) m_VX_MASK m_PPCEFS 0;
  mk_opcode "efsctui" (m_VX 4 724) m_VX_MASK m_PPCEFS 0;
  mk_opcode "efscth" (m_VX_RA_CONST 4 725 4) m_VX_RA_CONST_MASK m_PPCEFS2 0;
  mk_opcode "efsctsi" (m_VX 4 725) m_VX_MASK m_PPCEFS 0;
  mk_opcode "efsctuf" (m_VX 4 726) m_VX_MASK m_PPCEFS 0;
  mk_opcode "efsctsf" (m_VX 4 727) m_VX_MASK m_PPCEFS 0;
  mk_opcode "efsctuiz" (m_VX 4 728) m_VX_MASK m_PPCEFS 0;
  mk_opcode "nput" (m_APU 4 364 0) m_APU_RT_MASK m_PPC405 0;
  mk_opcode "efsctsiz" (m_VX 4 730) m_VX_MASK m_PPCEFS 0;
  mk_opcode "efststgt" (m_VX 4 732) m_VX_MASK m_PPCEFS 0;
  mk_opcode "efststlt" (m_VX 4 733) m_VX_MASK m_PPCEFS 0;
  mk_opcode "efststeq" (m_VX 4 734) m_VX_MASK m_PPCEFS 0;
  mk_opcode "efdadd" (m_VX 4 736) m_VX_MASK m_PPCEFS 0;
  mk_opcode "efdsub" (m_VX 4 737) m_VX_MASK m_PPCEFS 0;
  mk_opcode "efdmadd" (m_VX 4 738) m_VX_MASK m_PPCEFS2 (m_E500 .| m_E500MC);
  mk_opcode "efdcfuid" (m_VX 4 738) m_VX_MASK (m_E500 .| m_E500MC) 0;
  mk_opcode "efdmsub" (m_VX 4 739) m_VX_MASK m_PPCEFS2 (m_E500 .| m_E500MC);
  mk_opcode "efdcfsid" (m_VX 4 739) m_VX_MASK (m_E500 .| m_E500MC) 0;
  mk_opcode "efdabs" (m_VX 4 740) m_VX_MASK m_PPCEFS 0;
  mk_opcode "efdnabs" (m_VX 4 741) m_VX_MASK m_PPCEFS 0;
  mk_opcode "efdneg" (m_VX 4 742) m_VX_MASK m_PPCEFS 0;
  mk_opcode "efdsqrt" (m_VX_RB_CONST 4 743 0) m_VX_RB_CONST_MASK m_PPCEFS2 0].
(* qtlib/ppc-opc.c:3935-4034 *)
Definition opcodes_04 : list opcode := [
  mk_opcode "efdmul" (m_VX 4 744) m_VX_MASK m_PPCEFS 0;
  mk_opcode "efddiv" (m_VX 4 745) m_VX_MASK m_PPCEFS 0;
  mk_opcode "efdnmadd" (m_VX 4 746) m_VX_MASK m_PPCEFS2 (m_E500 .| m_E500MC);
  mk_opcode "efdctuidz" (m_VX 4 746) m_VX_MASK (m_E500 .| m_E500MC) 0;
  mk_opcode "efdnmsub" (m_VX 4 747) m_VX_MASK m_PPCEFS2 (m_E500 .| m_E500MC);
  mk_opcode "efdctsidz" (m_VX 4 747) m_VX_MASK (m_E500 .| m_E500MC) 0;
  mk_opcode "efdcmpgt" (m_VX 4 748) m_VX_MASK m_PPCEFS 0;
  mk_opcode "efdcmplt" (m_VX 4 749) m_VX_MASK m_PPCEFS 0;
  mk_opcode "efdcmpeq" (m_VX 4 750) m_VX_MASK m_PPCEFS 0;
  mk_opcode "efdcfs" (m_VX 4 751) m_VX_MASK m_PPCEFS 0;
  mk_opcode "efdcfui" (m_VX_RA_CONST 4 752 0) m_VX_RA_CONST_MASK m_PPCEFS 0;
  mk_opcode "efdcfuid" (m_VX_RA_CONST 4 752 1) m_VX_RA_CONST_MASK m_PPCEFS (m_E500 .| m_E500MC);
  mk_opcode "efdcfsi" (m_VX_RA_CONST 4 753 0) m_VX_RA_CONST_MASK m_PPCEFS 0;
  mk_opcode "efdcfsid" (m_VX_RA_CONST 4 753 1) m_VX_RA_CONST_MASK m_PPCEFS (m_E500 .| m_E500MC);
  mk_opcode "efdcfh" (m_VX_RA_CONST 4 753 4) m_VX_RA_CONST_MASK m_PPCEFS2 0;
  mk_opcode "efdcfuf" (m_VX 4 754) m_VX_MASK m_PPCEFS 0;
  mk_opcode "efdcfsf" (m_VX 4 755) m_VX_MASK m_PPCEFS 0;
  mk_opcode "efdctui" (m_VX 4 756) m_VX_MASK m_PPCEFS 0;
  mk_opcode "efdcth" (m_VX_RA_CONST 4 757 4) m_VX_RA_CONST_MASK m_PPCEFS2 0;
  mk_opcode "efdctsi" (m_VX 4 757) m_VX_MASK m_PPCEFS 0;
  mk_opcode "efdctuf" (m_VX 4 758) m_VX_MASK m_PPCEFS 0;
  mk_opcode "efdctsf" (m_VX 4 759) m_VX_MASK m_PPCEFS 0;
  mk_opcode "efdctuiz" (m_VX_RA_CONST 4 760 0) m_VX_RA_CONST_MASK m_PPCEFS 0;
  mk_opcode "efdctuidz" (m_VX_RA_CONST 4 760 1) m_VX_RA_CONST_MASK m_PPCEFS (m_E500 .| m_E500MC);
  mk_opcode "ncput" (m_APU 4 380 0) m_APU_RT_MASK m_PPC405 0;
  mk_opcode "efdctsiz" (m_VX_RA_CONST 4 762 0) m_VX_RA_CONST_MASK m_PPCEFS 0;
  mk_opcode "efdctsidz" (m_VX_RA_CONST 4 762 1) m_VX_RA_CONST_MASK m_PPCEFS (m_E500 .| m_E500MC);
  mk_opcode "efdtstgt" (m_VX 4 764) m_VX_MASK m_PPCEFS 0;
  mk_opcode "efdtstlt" (m_VX 4 765) m_VX_MASK m_PPCEFS 0;
  mk_opcode "efdtsteq" (m_VX 4 766) m_VX_MASK m_PPCEFS 0;
  mk_opcode "evlddx" (m_VX 4 768) m_VX_MASK m_PPCSPE 0;
  mk_opcode "vaddsbs" (m_VX 4 768) m_VX_MASK m_PPCVEC 0;
  mk_opcode "evldd" (m_VX 4 769) m_VX_MASK m_PPCSPE 0;
  mk_opcode "evldwx" (m_VX 4 770) m_VX_MASK m_PPCSPE 0;
  mk_opcode "vminsb" (m_VX 4 770) m_VX_MASK m_PPCVEC 0;
  mk_opcode "evldw" (m_VX 4 771) m_VX_MASK m_PPCSPE 0;
  mk_opcode "evldhx" (m_VX 4 772) m_VX_MASK m_PPCSPE 0;
  mk_opcode "vsrab" (m_VX 4 772) m_VX_MASK m_PPCVEC 0;
  mk_opcode "evldh" (m_VX 4 773) m_VX_MASK m_PPCSPE 0;
  mk_opcode "vcmpgtsb" (m_VXR 4 774 0) m_VXR_MASK m_PPCVEC 0;
  mk_opcode "evlhhesplatx" (m_VX 4 776) m_VX_MASK m_PPCSPE 0;
  mk_opcode "vmulesb" (m_VX 4 776) m_VX_MASK m_PPCVEC 0;
  mk_opcode "evlhhesplat" (m_VX 4 777) m_VX_MASK m_PPCSPE 0;
  mk_opcode "vcfux" (m_VX 4 778) m_VX_MASK m_PPCVEC 0;
  mk_opcode "vcuxwfp" (m_VX 4 778) m_VX_MASK m_PPCVEC 0;
  mk_opcode "evlhhousplatx" (m_VX 4 780) m_VX_MASK m_PPCSPE 0;
  mk_opcode "vspltisb" (m_VX 4 780) m_VXVB_MASK m_PPCVEC 0;
  mk_opcode "vinsertb" (m_VX 4 781) m_VXUIMM4_MASK m_PPCVEC3 0;
  mk_opcode "evlhhousplat" (m_VX 4 781) m_VX_MASK m_PPCSPE 0;
  mk_opcode "evlhhossplatx" (m_VX 4 782) m_VX_MASK m_PPCSPE 0;
  mk_opcode "vpkpx" (m_VX 4 782) m_VX_MASK m_PPCVEC 0;
  mk_opcode "evlhhossplat" (m_VX 4 783) m_VX_MASK m_PPCSPE 0;
  mk_opcode "mullhwu" (m_XRC 4 392 0) m_X_MASK m_MULHW 0;
  mk_opcode "evlwhex" (m_VX 4 784) m_VX_MASK m_PPCSPE 0;
  mk_opcode "mullhwu." (m_XRC 4 392 1) m_X_MASK m_MULHW 0;
  mk_opcode "evlwhe" (m_VX 4 785) m_VX_MASK m_PPCSPE 0;
  mk_opcode "evlwhoux" (m_VX 4 788) m_VX_MASK m_PPCSPE 0;
  mk_opcode "evlwhou" (m_VX 4 789) m_VX_MASK m_PPCSPE 0;
  mk_opcode "evlwhosx" (m_VX 4 790) m_VX_MASK m_PPCSPE 0;
  mk_opcode "evlwhos" (m_VX 4 791) m_VX_MASK m_PPCSPE 0;
  mk_opcode "maclhwu" (m_XO 4 396 0 0) m_XO_MASK m_MULHW 0;
  mk_opcode "evlwwsplatx" (m_VX 4 792) m_VX_MASK m_PPCSPE 0;
  mk_opcode "maclhwu." (m_XO 4 396 0 1) m_XO_MASK m_MULHW 0;
  mk_opcode "evlwwsplat" (m_VX 4 793) m_VX_MASK m_PPCSPE 0;
  mk_opcode "evlwhsplatx" (m_VX 4 796) m_VX_MASK m_PPCSPE 0;
  mk_opcode "evlwhsplat" (m_VX 4 797) m_VX_MASK m_PPCSPE 0;
  mk_opcode "evstddx" (m_VX 4 800) m_VX_MASK m_PPCSPE 0;
  mk_opcode "evstdd" (m_VX 4 801) m_VX_MASK m_PPCSPE 0;
  mk_opcode "evstdwx" (m_VX 4 802) m_VX_MASK m_PPCSPE 0;
  mk_opcode "evstdw" (m_VX 4 803) m_VX_MASK m_PPCSPE 0;
  mk_opcode "evstdhx" (m_VX 4 804) m_VX_MASK m_PPCSPE 0;
  mk_opcode "evstdh" (m_VX 4 805) m_VX_MASK m_PPCSPE 0;
  mk_opcode "evstwhex" (m_VX 4 816) m_VX_MASK m_PPCSPE 0;
  mk_opcode "evstwhe" (m_VX 4 817) m_VX_MASK m_PPCSPE 0;
  mk_opcode "evstwhox" (m_VX 4 820) m_VX_MASK m_PPCSPE 0;
  mk_opcode "evstwho" (m_VX 4 821) m_VX_MASK m_PPCSPE 0;
  mk_opcode "evstwwex" (m_VX 4 824) m_VX_MASK m_PPCSPE 0;
  mk_opcode "evstwwe" (m_VX 4 825) m_VX_MASK m_PPCSPE 0;
  mk_opcode "evstwwox" (m_VX 4 828) m_VX_MASK m_PPCSPE 0;
  mk_opcode "evstwwo" (m_VX 4 829) m_VX_MASK m_PPCSPE 0;
  mk_opcode "vaddshs" (m_VX 4 832) m_VX_MASK m_PPCVEC 0;
  mk_opcode "bcdcpsgn." (m_VX 4 833) m_VX_MASK m_PPCVEC3 0;
  mk_opcode "vminsh" (m_VX 4 834) m_VX_MASK m_PPCVEC 0;
  mk_opcode "vsrah" (m_VX 4 836) m_VX_MASK m_PPCVEC 0;
  mk_opcode "vcmpgtsh" (m_VXR 4 838 0) m_VXR_MASK m_PPCVEC 0;
  mk_opcode "vmulesh" (m_VX 4 840) m_VX_MASK m_PPCVEC 0;
  mk_opcode "vcfsx" (m_VX 4 842) m_VX_MASK m_PPCVEC 0;
  mk_opcode "vcsxwfp" (m_VX 4 842) m_VX_MASK m_PPCVEC 0;
  mk_opcode "vspltish" (m_VX 4 844) m_VXVB_MASK m_PPCVEC 0;
  mk_opcode "vinserth" (m_VX 4 845) m_VXUIMM4_MASK m_PPCVEC3 0;
  mk_opcode "vupkhpx" (m_VX 4 846) m_VXVA_MASK m_PPCVEC 0;
  mk_opcode "mullhw" (m_XRC 4 424 0) m_X_MASK m_MULHW 0;
  mk_opcode "mullhw." (m_XRC 4 424 1) m_X_MASK m_MULHW 0;
  mk_opcode "maclhw" (m_XO 4 428 0 0) m_XO_MASK m_MULHW 0;
  mk_opcode "maclhw." (m_XO 4 428 0 1) m_XO_MASK m_MULHW 0;
  mk_opcode "nmaclhw" (m_XO 4 430 0 0) m_XO_MASK m_MULHW 0;
  mk_opcode "nmaclhw." (m_XO 4 430 0 1) m_XO_MASK m_MULHW 0;
  mk_opcode "vaddsws" (m_VX 4 896) m_VX_MASK m_PPCVEC 0;
  mk_opcode "vminsw" (m_VX 4 898) m_VX_MASK m_PPCVEC 0;
  mk_opcode "vsraw" (m_VX 4 900) m_VX_MASK m_PPCVEC 0].
(* qtlib/ppc-opc.c:4035-4134 *)
Definition opcodes_05 : list opcode := [
  mk_opcode "vcmpgtsw" (m_VXR 4 902 0) m_VXR_MASK m_PPCVEC 0;
  mk_opcode "vmulesw" (m_VX 4 904) m_VX_MASK m_PPCVEC2 0;
  mk_opcode "vctuxs" (m_VX 4 906) m_VX_MASK m_PPCVEC 0;
  mk_opcode "vcfpuxws" (m_VX 4 906) m_VX_MASK m_PPCVEC 0;
  mk_opcode "vspltisw" (m_VX 4 908) m_VXVB_MASK m_PPCVEC 0;
  mk_opcode "vinsertw" (m_VX 4 909) m_VXUIMM4_MASK m_PPCVEC3 0;
  mk_opcode "maclhwsu" (m_XO 4 460 0 0) m_XO_MASK m_MULHW 0;
  mk_opcode "maclhwsu." (m_XO 4 460 0 1) m_XO_MASK m_MULHW 0;
  mk_opcode "vminsd" (m_VX 4 962) m_VX_MASK m_PPCVEC2 0;
  mk_opcode "vsrad" (m_VX 4 964) m_VX_MASK m_PPCVEC2 0;
  mk_opcode "vcmpbfp" (m_VXR 4 966 0) m_VXR_MASK m_PPCVEC 0;
  mk_opcode "vcmpgtsd" (m_VXR 4 967 0) m_VXR_MASK m_PPCVEC2 0;
  mk_opcode "vctsxs" (m_VX 4 970) m_VX_MASK m_PPCVEC 0;
  mk_opcode "vcfpsxws" (m_VX 4 970) m_VX_MASK m_PPCVEC 0;
  mk_opcode "vinsertd" (m_VX 4 973) m_VXUIMM4_MASK m_PPCVEC3 0;
  mk_opcode "vupklpx" (m_VX 4 974) m_VXVA_MASK m_PPCVEC 0;
  mk_opcode "maclhws" (m_XO 4 492 0 0) m_XO_MASK m_MULHW 0;
  mk_opcode "maclhws." (m_XO 4 492 0 1) m_XO_MASK m_MULHW 0;
  mk_opcode "nmaclhws" (m_XO 4 494 0 0) m_XO_MASK m_MULHW 0;
  mk_opcode "nmaclhws." (m_XO 4 494 0 1) m_XO_MASK m_MULHW 0;
  mk_opcode "vsububm" (m_VX 4 1024) m_VX_MASK m_PPCVEC 0;
  mk_opcode "bcdadd." (m_VX 4 1025) m_VXPS_MASK m_PPCVEC2 0;
  mk_opcode "vavgub" (m_VX 4 1026) m_VX_MASK m_PPCVEC 0;
  mk_opcode "vabsdub" (m_VX 4 1027) m_VX_MASK m_PPCVEC2 0;
  mk_opcode "evmhessf" (m_VX 4 1027) m_VX_MASK m_PPCSPE 0;
  mk_opcode "vand" (m_VX 4 1028) m_VX_MASK m_PPCVEC 0;
  mk_opcode "vcmpequb." (m_VXR 4 6 1) m_VXR_MASK m_PPCVEC 0;
  mk_opcode "vcmpneb." (m_VXR 4 7 1) m_VXR_MASK m_PPCVEC3 0;
  mk_opcode "udi0fcm." (m_APU 4 515 0) m_APU_MASK (m_PPC405 .| m_PPC440) 0;
  mk_opcode "udi0fcm" (m_APU 4 515 1) m_APU_MASK (m_PPC405 .| m_PPC440) 0;
  mk_opcode "evmhossf" (m_VX 4 1031) m_VX_MASK m_PPCSPE 0;
  mk_opcode "vpmsumb" (m_VX 4 1032) m_VX_MASK m_PPCVEC2 0;
  mk_opcode "evmheumi" (m_VX 4 1032) m_VX_MASK m_PPCSPE 0;
  mk_opcode "evmhesmi" (m_VX 4 1033) m_VX_MASK m_PPCSPE 0;
  mk_opcode "vmaxfp" (m_VX 4 1034) m_VX_MASK m_PPCVEC 0;
  mk_opcode "evmhesmf" (m_VX 4 1035) m_VX_MASK m_PPCSPE 0;
  mk_opcode "evmhoumi" (m_VX 4 1036) m_VX_MASK m_PPCSPE 0;
  mk_opcode "vslo" (m_VX 4 1036) m_VX_MASK m_PPCVEC 0;
  mk_opcode "evmhosmi" (m_VX 4 1037) m_VX_MASK m_PPCSPE 0;
  mk_opcode "evmhosmf" (m_VX 4 1039) m_VX_MASK m_PPCSPE 0;
  mk_opcode "machhwuo" (m_XO 4 12 1 0) m_XO_MASK m_MULHW 0;
  mk_opcode "machhwuo." (m_XO 4 12 1 1) m_XO_MASK m_MULHW 0;
  mk_opcode "ps_merge00" (m_XOPS 4 528 0) m_XOPS_MASK m_PPCPS 0;
  mk_opcode "ps_merge00." (m_XOPS 4 528 1) m_XOPS_MASK m_PPCPS 0;
  mk_opcode "evmhessfa" (m_VX 4 1059) m_VX_MASK m_PPCSPE 0;
  mk_opcode "evmhossfa" (m_VX 4 1063) m_VX_MASK m_PPCSPE 0;
  mk_opcode "evmheumia" (m_VX 4 1064) m_VX_MASK m_PPCSPE 0;
  mk_opcode "evmhesmia" (m_VX 4 1065) m_VX_MASK m_PPCSPE 0;
  mk_opcode "evmhesmfa" (m_VX 4 1067) m_VX_MASK m_PPCSPE 0;
  mk_opcode "evmhoumia" (m_VX 4 1068) m_VX_MASK m_PPCSPE 0;
  mk_opcode "evmhosmia" (m_VX 4 1069) m_VX_MASK m_PPCSPE 0;
  mk_opcode "evmhosmfa" (m_VX 4 1071) m_VX_MASK m_PPCSPE 0;
  mk_opcode "vsubuhm" (m_VX 4 1088) m_VX_MASK m_PPCVEC 0;
  mk_opcode "bcdsub." (m_VX 4 1089) m_VXPS_MASK m_PPCVEC2 0;
  mk_opcode "vavguh" (m_VX 4 1090) m_VX_MASK m_PPCVEC 0;
  mk_opcode "evmwlssf" (m_VX 4 1091) m_VX_MASK m_PPCSPE 0;
  mk_opcode "vabsduh" (m_VX 4 1091) m_VX_MASK m_PPCVEC2 0;
  mk_opcode "vandc" (m_VX 4 1092) m_VX_MASK m_PPCVEC 0;
  mk_opcode "vcmpequh." (m_VXR 4 70 1) m_VXR_MASK m_PPCVEC 0;
  mk_opcode "udi1fcm." (m_APU 4 547 0) m_APU_MASK (m_PPC405 .| m_PPC440) 0;
  mk_opcode "udi1fcm" (m_APU 4 547 1) m_APU_MASK (m_PPC405 .| m_PPC440) 0;
  mk_opcode "vcmpneh." (m_VXR 4 71 1) m_VXR_MASK m_PPCVEC3 0;
  mk_opcode "evmwhssf" (m_VX 4 1095) m_VX_MASK m_PPCSPE 0;
  mk_opcode "vpmsumh" (m_VX 4 1096) m_VX_MASK m_PPCVEC2 0;
  mk_opcode "evmwlumi" (m_VX 4 1096) m_VX_MASK m_PPCSPE 0;
  mk_opcode "vminfp" (m_VX 4 1098) m_VX_MASK m_PPCVEC 0;
  mk_opcode "evmwlsmf" (m_VX 4 1099) m_VX_MASK m_PPCSPE 0;
  mk_opcode "evmwhumi" (m_VX 4 1100) m_VX_MASK m_PPCSPE 0;
  mk_opcode "vsro" (m_VX 4 1100) m_VX_MASK m_PPCVEC 0;
  mk_opcode "evmwhsmi" (m_VX 4 1101) m_VX_MASK m_PPCSPE 0;
  mk_opcode "vpkudum" (m_VX 4 1102) m_VX_MASK m_PPCVEC2 0;
  mk_opcode "evmwhsmf" (m_VX 4 1103) m_VX_MASK m_PPCSPE 0;
  mk_opcode "evmwssf" (m_VX 4 1107) m_VX_MASK m_PPCSPE 0;
  mk_opcode "machhwo" (m_XO 4 44 1 0) m_XO_MASK m_MULHW 0;
  mk_opcode "evmwumi" (m_VX 4 1112) m_VX_MASK m_PPCSPE 0;
  mk_opcode "machhwo." (m_XO 4 44 1 1) m_XO_MASK m_MULHW 0;
  mk_opcode "evmwsmi" (m_VX 4 1113) m_VX_MASK m_PPCSPE 0;
  mk_opcode "evmwsmf" (m_VX 4 1115) m_VX_MASK m_PPCSPE 0;
  mk_opcode "nmachhwo" (m_XO 4 46 1 0) m_XO_MASK m_MULHW 0;
  mk_opcode "nmachhwo." (m_XO 4 46 1 1) m_XO_MASK m_MULHW 0;
  mk_opcode "ps_merge01" (m_XOPS 4 560 0) m_XOPS_MASK m_PPCPS 0;
  mk_opcode "ps_merge01." (m_XOPS 4 560 1) m_XOPS_MASK m_PPCPS 0;
  mk_opcode "evmwlssfa" (m_VX 4 1123) m_VX_MASK m_PPCSPE 0;
  mk_opcode "evmwhssfa" (m_VX 4 1127) m_VX_MASK m_PPCSPE 0;
  mk_opcode "evmwlumia" (m_VX 4 1128) m_VX_MASK m_PPCSPE 0;
  mk_opcode "evmwlsmfa" (m_VX 4 1131) m_VX_MASK m_PPCSPE 0;
  mk_opcode "evmwhumia" (m_VX 4 1132) m_VX_MASK m_PPCSPE 0;
  mk_opcode "evmwhsmia" (m_VX 4 1133) m_VX_MASK m_PPCSPE 0;
  mk_opcode "evmwhsmfa" (m_VX 4 1135) m_VX_MASK m_PPCSPE 0;
  mk_opcode "evmwssfa" (m_VX 4 1139) m_VX_MASK m_PPCSPE 0;
  mk_opcode "evmwumia" (m_VX 4 1144) m_VX_MASK m_PPCSPE 0;
  mk_opcode "evmwsmia" (m_VX 4 1145) m_VX_MASK m_PPCSPE 0;
  mk_opcode "evmwsmfa" (m_VX 4 1147) m_VX_MASK m_PPCSPE 0;
  mk_opcode "vsubuwm" (m_VX 4 1152) m_VX_MASK m_PPCVEC 0;
  mk_opcode "bcdus." (m_VX 4 1153) m_VX_MASK m_PPCVEC3 0;
  mk_opcode "vavguw" (m_VX 4 1154) m_VX_MASK m_PPCVEC 0;
  mk_opcode "vabsduw" (m_VX 4 1155) m_VX_MASK m_PPCVEC2 0;
  mk_opcode "vmr" (m_VX 4 1156) m_VX_MASK m_PPCVEC 0;
  mk_opcode "vor" (m_VX 4 1156) m_VX_MASK m_PPCVEC 0;
  mk_opcode "vcmpnew." (m_VXR 4 135 1) m_VXR_MASK m_PPCVEC3 0].
(* qtlib/ppc-opc.c:4135-4234 *)
Definition opcodes_06 : list opcode := [
  mk_opcode "vpmsumw" (m_VX 4 1160) m_VX_MASK m_PPCVEC2 0;
  mk_opcode "vcmpequw." (m_VXR 4 134 1) m_VXR_MASK m_PPCVEC 0;
  mk_opcode "udi2fcm." (m_APU 4 579 0) m_APU_MASK (m_PPC405 .| m_PPC440) 0;
  mk_opcode "udi2fcm" (m_APU 4 579 1) m_APU_MASK (m_PPC405 .| m_PPC440) 0;
  mk_opcode "machhwsuo" (m_XO 4 76 1 0) m_XO_MASK m_MULHW 0;
  mk_opcode "machhwsuo." (m_XO 4 76 1 1) m_XO_MASK m_MULHW 0;
  mk_opcode "ps_merge10" (m_XOPS 4 592 0) m_XOPS_MASK m_PPCPS 0;
  mk_opcode "ps_merge10." (m_XOPS 4 592 1) m_XOPS_MASK m_PPCPS 0;
  mk_opcode "vsubudm" (m_VX 4 1216) m_VX_MASK m_PPCVEC2 0;
  mk_opcode "evaddusiaaw" (m_VX 4 1216) m_VX_MASK m_PPCSPE 0;
  mk_opcode "bcds." (m_VX 4 1217) m_VXPS_MASK m_PPCVEC3 0;
  mk_opcode "evaddssiaaw" (m_VX 4 1217) m_VX_MASK m_PPCSPE 0;
  mk_opcode "evsubfusiaaw" (m_VX 4 1218) m_VX_MASK m_PPCSPE 0;
  mk_opcode "evsubfssiaaw" (m_VX 4 1219) m_VX_MASK m_PPCSPE 0;
  mk_opcode "evmra" (m_VX 4 1220) m_VX_MASK m_PPCSPE 0;
  mk_opcode "vxor" (m_VX 4 1220) m_VX_MASK m_PPCVEC 0;
  mk_opcode "evdivws" (m_VX 4 1222) m_VX_MASK m_PPCSPE 0;
  mk_opcode "vcmpeqfp." (m_VXR 4 198 1) m_VXR_MASK m_PPCVEC 0;
  mk_opcode "udi3fcm." (m_APU 4 611 0) m_APU_MASK (m_PPC405 .| m_PPC440) 0;
  mk_opcode "vcmpequd." (m_VXR 4 199 1) m_VXR_MASK m_PPCVEC2 0;
  mk_opcode "udi3fcm" (m_APU 4 611 1) m_APU_MASK (m_PPC405 .| m_PPC440) 0;
  mk_opcode "evdivwu" (m_VX 4 1223) m_VX_MASK m_PPCSPE 0;
  mk_opcode "vpmsumd" (m_VX 4 1224) m_VX_MASK m_PPCVEC2 0;
  mk_opcode "evaddumiaaw" (m_VX 4 1224) m_VX_MASK m_PPCSPE 0;
  mk_opcode "evaddsmiaaw" (m_VX 4 1225) m_VX_MASK m_PPCSPE 0;
  mk_opcode "evsubfumiaaw" (m_VX 4 1226) m_VX_MASK m_PPCSPE 0;
  mk_opcode "evsubfsmiaaw" (m_VX 4 1227) m_VX_MASK m_PPCSPE 0;
  mk_opcode "vpkudus" (m_VX 4 1230) m_VX_MASK m_PPCVEC2 0;
  mk_opcode "machhwso" (m_XO 4 108 1 0) m_XO_MASK m_MULHW 0;
  mk_opcode "machhwso." (m_XO 4 108 1 1) m_XO_MASK m_MULHW 0;
  mk_opcode "nmachhwso" (m_XO 4 110 1 0) m_XO_MASK m_MULHW 0;
  mk_opcode "nmachhwso." (m_XO 4 110 1 1) m_XO_MASK m_MULHW 0;
  mk_opcode "ps_merge11" (m_XOPS 4 624 0) m_XOPS_MASK m_PPCPS 0;
  mk_opcode "ps_merge11." (m_XOPS 4 624 1) m_XOPS_MASK m_PPCPS 0;
  mk_opcode "vsubuqm" (m_VX 4 1280) m_VX_MASK m_PPCVEC2 0;
  mk_opcode "evmheusiaaw" (m_VX 4 1280) m_VX_MASK m_PPCSPE 0;
  mk_opcode "bcdtrunc." (m_VX 4 1281) m_VXPS_MASK m_PPCVEC3 0;
  mk_opcode "evmhessiaaw" (m_VX 4 1281) m_VX_MASK m_PPCSPE 0;
  mk_opcode "vavgsb" (m_VX 4 1282) m_VX_MASK m_PPCVEC 0;
  mk_opcode "evmhessfaaw" (m_VX 4 1283) m_VX_MASK m_PPCSPE 0;
  mk_opcode "evmhousiaaw" (m_VX 4 1284) m_VX_MASK m_PPCSPE 0;
  mk_opcode "vnot" (m_VX 4 1284) m_VX_MASK m_PPCVEC 0;
  mk_opcode "vnor" (m_VX 4 1284) m_VX_MASK m_PPCVEC 0;
  mk_opcode "evmhossiaaw" (m_VX 4 1285) m_VX_MASK m_PPCSPE 0;
  mk_opcode "udi4fcm." (m_APU 4 643 0) m_APU_MASK (m_PPC405 .| m_PPC440) 0;
  mk_opcode "udi4fcm" (m_APU 4 643 1) m_APU_MASK (m_PPC405 .| m_PPC440) 0;
  mk_opcode "vcmpnezb." (m_VXR 4 263 1) m_VXR_MASK m_PPCVEC3 0;
  mk_opcode "evmhossfaaw" (m_VX 4 1287) m_VX_MASK m_PPCSPE 0;
  mk_opcode "evmheumiaaw" (m_VX 4 1288) m_VX_MASK m_PPCSPE 0;
  mk_opcode "vcipher" (m_VX 4 1288) m_VX_MASK m_PPCVEC2 0;
  mk_opcode "vcipherlast" (m_VX 4 1289) m_VX_MASK m_PPCVEC2 0;
  mk_opcode "evmhesmiaaw" (m_VX 4 1289) m_VX_MASK m_PPCSPE 0;
  mk_opcode "evmhesmfaaw" (m_VX 4 1291) m_VX_MASK m_PPCSPE 0;
  mk_opcode "vgbbd" (m_VX 4 1292) m_VXVA_MASK m_PPCVEC2 0;
  mk_opcode "evmhoumiaaw" (m_VX 4 1292) m_VX_MASK m_PPCSPE 0;
  mk_opcode "evmhosmiaaw" (m_VX 4 1293) m_VX_MASK m_PPCSPE 0;
  mk_opcode "evmhosmfaaw" (m_VX 4 1295) m_VX_MASK m_PPCSPE 0;
  mk_opcode "macchwuo" (m_XO 4 140 1 0) m_XO_MASK m_MULHW 0;
  mk_opcode "macchwuo." (m_XO 4 140 1 1) m_XO_MASK m_MULHW 0;
  mk_opcode "evmhegumiaa" (m_VX 4 1320) m_VX_MASK m_PPCSPE 0;
  mk_opcode "evmhegsmiaa" (m_VX 4 1321) m_VX_MASK m_PPCSPE 0;
  mk_opcode "evmhegsmfaa" (m_VX 4 1323) m_VX_MASK m_PPCSPE 0;
  mk_opcode "evmhogumiaa" (m_VX 4 1324) m_VX_MASK m_PPCSPE 0;
  mk_opcode "evmhogsmiaa" (m_VX 4 1325) m_VX_MASK m_PPCSPE 0;
  mk_opcode "evmhogsmfaa" (m_VX 4 1327) m_VX_MASK m_PPCSPE 0;
  mk_opcode "vsubcuq" (m_VX 4 1344) m_VX_MASK m_PPCVEC2 0;
  mk_opcode "evmwlusiaaw" (m_VX 4 1344) m_VX_MASK m_PPCSPE 0;
  mk_opcode "bcdutrunc." (m_VX 4 1345) m_VX_MASK m_PPCVEC3 0;
  mk_opcode "evmwlssiaaw" (m_VX 4 1345) m_VX_MASK m_PPCSPE 0;
  mk_opcode "vavgsh" (m_VX 4 1346) m_VX_MASK m_PPCVEC 0;
  mk_opcode "evmwlssfaaw" (m_VX 4 1347) m_VX_MASK m_PPCSPE 0;
  mk_opcode "evmwhusiaa" (m_VX 4 1348) m_VX_MASK m_PPCSPE 0;
  mk_opcode "vorc" (m_VX 4 1348) m_VX_MASK m_PPCVEC2 0;
  mk_opcode "evmwhssmaa" (m_VX 4 1349) m_VX_MASK m_PPCSPE 0;
  mk_opcode "udi5fcm." (m_APU 4 675 0) m_APU_MASK (m_PPC405 .| m_PPC440) 0;
  mk_opcode "udi5fcm" (m_APU 4 675 1) m_APU_MASK (m_PPC405 .| m_PPC440) 0;
  mk_opcode "vcmpnezh." (m_VXR 4 327 1) m_VXR_MASK m_PPCVEC3 0;
  mk_opcode "evmwhssfaa" (m_VX 4 1351) m_VX_MASK m_PPCSPE 0;
  mk_opcode "vncipher" (m_VX 4 1352) m_VX_MASK m_PPCVEC2 0;
  mk_opcode "evmwlumiaaw" (m_VX 4 1352) m_VX_MASK m_PPCSPE 0;
  mk_opcode "vncipherlast" (m_VX 4 1353) m_VX_MASK m_PPCVEC2 0;
  mk_opcode "evmwlsmiaaw" (m_VX 4 1353) m_VX_MASK m_PPCSPE 0;
  mk_opcode "evmwlsmfaaw" (m_VX 4 1355) m_VX_MASK m_PPCSPE 0;
  mk_opcode "evmwhumiaa" (m_VX 4 1356) m_VX_MASK m_PPCSPE 0;
  mk_opcode "vbpermq" (m_VX 4 1356) m_VX_MASK m_PPCVEC2 0;
  mk_opcode "evmwhsmiaa" (m_VX 4 1357) m_VX_MASK m_PPCSPE 0;
  mk_opcode "vpksdus" (m_VX 4 1358) m_VX_MASK m_PPCVEC2 0;
  mk_opcode "evmwhsmfaa" (m_VX 4 1359) m_VX_MASK m_PPCSPE 0;
  mk_opcode "evmwssfaa" (m_VX 4 1363) m_VX_MASK m_PPCSPE 0;
  mk_opcode "macchwo" (m_XO 4 172 1 0) m_XO_MASK m_MULHW 0;
  mk_opcode "evmwumiaa" (m_VX 4 1368) m_VX_MASK m_PPCSPE 0;
  mk_opcode "macchwo." (m_XO 4 172 1 1) m_XO_MASK m_MULHW 0;
  mk_opcode "evmwsmiaa" (m_VX 4 1369) m_VX_MASK m_PPCSPE 0;
  mk_opcode "evmwsmfaa" (m_VX 4 1371) m_VX_MASK m_PPCSPE 0;
  mk_opcode "nmacchwo" (m_XO 4 174 1 0) m_XO_MASK m_MULHW 0;
  mk_opcode "nmacchwo." (m_XO 4 174 1 1) m_XO_MASK m_MULHW 0;
  mk_opcode "evmwhgumiaa" (m_VX 4 1380) m_VX_MASK m_PPCSPE 0;
  mk_opcode "evmwhgsmiaa" (m_VX 4 1381) m_VX_MASK m_PPCSPE 0;
  mk_opcode "evmwhgssfaa" (m_VX 4 1383) m_VX_MASK m_PPCSPE 0;
  mk_opcode "evmwhgsmfaa" (m_VX 4 1391) m_VX_MASK m_PPCSPE 0].
(* qtlib/ppc-opc.c:4235-4334 *)
Definition opcodes_07 : list opcode := [
  mk_opcode "evmheusianw" (m_VX 4 1408) m_VX_MASK m_PPCSPE 0;
  mk_opcode "vsubcuw" (m_VX 4 1408) m_VX_MASK m_PPCVEC 0;
  mk_opcode "evmhessianw" (m_VX 4 1409) m_VX_MASK m_PPCSPE 0;
  mk_opcode "bcdctsq." (m_VXVA 4 1409 0) m_VXVA_MASK m_PPCVEC3 0;
  mk_opcode "bcdcfsq." (m_VXVA 4 1409 2) m_VXVAPS_MASK m_PPCVEC3 0;
  mk_opcode "bcdctz." (m_VXVA 4 1409 4) m_VXVAPS_MASK m_PPCVEC3 0;
  mk_opcode "bcdctn." (m_VXVA 4 1409 5) m_VXVA_MASK m_PPCVEC3 0;
  mk_opcode "bcdcfz." (m_VXVA 4 1409 6) m_VXVAPS_MASK m_PPCVEC3 0;
  mk_opcode "bcdcfn." (m_VXVA 4 1409 7) m_VXVAPS_MASK m_PPCVEC3 0;
  mk_opcode "bcdsetsgn." (m_VXVA 4 1409 31) m_VXVAPS_MASK m_PPCVEC3 0;
  mk_opcode "vavgsw" (m_VX 4 1410) m_VX_MASK m_PPCVEC 0;
  mk_opcode "evmhessfanw" (m_VX 4 1411) m_VX_MASK m_PPCSPE 0;
  mk_opcode "vnand" (m_VX 4 1412) m_VX_MASK m_PPCVEC2 0;
  mk_opcode "evmhousianw" (m_VX 4 1412) m_VX_MASK m_PPCSPE 0;
  mk_opcode "evmhossianw" (m_VX 4 1413) m_VX_MASK m_PPCSPE 0;
  mk_opcode "udi6fcm." (m_APU 4 707 0) m_APU_MASK (m_PPC405 .| m_PPC440) 0;
  mk_opcode "udi6fcm" (m_APU 4 707 1) m_APU_MASK (m_PPC405 .| m_PPC440) 0;
  mk_opcode "vcmpnezw." (m_VXR 4 391 1) m_VXR_MASK m_PPCVEC3 0;
  mk_opcode "evmhossfanw" (m_VX 4 1415) m_VX_MASK m_PPCSPE 0;
  mk_opcode "evmheumianw" (m_VX 4 1416) m_VX_MASK m_PPCSPE 0;
  mk_opcode "evmhesmianw" (m_VX 4 1417) m_VX_MASK m_PPCSPE 0;
  mk_opcode "evmhesmfanw" (m_VX 4 1419) m_VX_MASK m_PPCSPE 0;
  mk_opcode "evmhoumianw" (m_VX 4 1420) m_VX_MASK m_PPCSPE 0;
  mk_opcode "evmhosmianw" (m_VX 4 1421) m_VX_MASK m_PPCSPE 0;
  mk_opcode "evmhosmfanw" (m_VX 4 1423) m_VX_MASK m_PPCSPE 0;
  mk_opcode "macchwsuo" (m_XO 4 204 1 0) m_XO_MASK m_MULHW 0;
  mk_opcode "macchwsuo." (m_XO 4 204 1 1) m_XO_MASK m_MULHW 0;
  mk_opcode "evmhegumian" (m_VX 4 1448) m_VX_MASK m_PPCSPE 0;
  mk_opcode "evmhegsmian" (m_VX 4 1449) m_VX_MASK m_PPCSPE 0;
  mk_opcode "evmhegsmfan" (m_VX 4 1451) m_VX_MASK m_PPCSPE 0;
  mk_opcode "evmhogumian" (m_VX 4 1452) m_VX_MASK m_PPCSPE 0;
  mk_opcode "evmhogsmian" (m_VX 4 1453) m_VX_MASK m_PPCSPE 0;
  mk_opcode "evmhogsmfan" (m_VX 4 1455) m_VX_MASK m_PPCSPE 0;
  mk_opcode "evmwlusianw" (m_VX 4 1472) m_VX_MASK m_PPCSPE 0;
  mk_opcode "bcdsr." (m_VX 4 1473) m_VXPS_MASK m_PPCVEC3 0;
  mk_opcode "evmwlssianw" (m_VX 4 1473) m_VX_MASK m_PPCSPE 0;
  mk_opcode "evmwlssfanw" (m_VX 4 1475) m_VX_MASK m_PPCSPE 0;
  mk_opcode "evmwhusian" (m_VX 4 1476) m_VX_MASK m_PPCSPE 0;
  mk_opcode "vsld" (m_VX 4 1476) m_VX_MASK m_PPCVEC2 0;
  mk_opcode "evmwhssian" (m_VX 4 1477) m_VX_MASK m_PPCSPE 0;
  mk_opcode "vcmpgefp." (m_VXR 4 454 1) m_VXR_MASK m_PPCVEC 0;
  mk_opcode "udi7fcm." (m_APU 4 739 0) m_APU_MASK (m_PPC405 .| m_PPC440) 0;
  mk_opcode "udi7fcm" (m_APU 4 739 1) m_APU_MASK (m_PPC405 .| m_PPC440) 0;
  mk_opcode "evmwhssfan" (m_VX 4 1479) m_VX_MASK m_PPCSPE 0;
  mk_opcode "vsbox" (m_VX 4 1480) m_VXVB_MASK m_PPCVEC2 0;
  mk_opcode "evmwlumianw" (m_VX 4 1480) m_VX_MASK m_PPCSPE 0;
  mk_opcode "evmwlsmianw" (m_VX 4 1481) m_VX_MASK m_PPCSPE 0;
  mk_opcode "evmwlsmfanw" (m_VX 4 1483) m_VX_MASK m_PPCSPE 0;
  mk_opcode "evmwhumian" (m_VX 4 1484) m_VX_MASK m_PPCSPE 0;
  mk_opcode "vbpermd" (m_VX 4 1484) m_VX_MASK m_PPCVEC3 0;
  mk_opcode "evmwhsmian" (m_VX 4 1485) m_VX_MASK m_PPCSPE 0;
  mk_opcode "vpksdss" (m_VX 4 1486) m_VX_MASK m_PPCVEC2 0;
  mk_opcode "evmwhsmfan" (m_VX 4 1487) m_VX_MASK m_PPCSPE 0;
  mk_opcode "evmwssfan" (m_VX 4 1491) m_VX_MASK m_PPCSPE 0;
  mk_opcode "macchwso" (m_XO 4 236 1 0) m_XO_MASK m_MULHW 0;
  mk_opcode "evmwumian" (m_VX 4 1496) m_VX_MASK m_PPCSPE 0;
  mk_opcode "macchwso." (m_XO 4 236 1 1) m_XO_MASK m_MULHW 0;
  mk_opcode "evmwsmian" (m_VX 4 1497) m_VX_MASK m_PPCSPE 0;
  mk_opcode "evmwsmfan" (m_VX 4 1499) m_VX_MASK m_PPCSPE 0;
  mk_opcode "evmwhgumian" (m_VX 4 1508) m_VX_MASK m_PPCSPE 0;
  mk_opcode "evmwhgsmian" (m_VX 4 1509) m_VX_MASK m_PPCSPE 0;
  mk_opcode "evmwhgssfan" (m_VX 4 1511) m_VX_MASK m_PPCSPE 0;
  mk_opcode "evmwhgsmfan" (m_VX 4 1519) m_VX_MASK m_PPCSPE 0;
  mk_opcode "nmacchwso" (m_XO 4 238 1 0) m_XO_MASK m_MULHW 0;
  mk_opcode "nmacchwso." (m_XO 4 238 1 1) m_XO_MASK m_MULHW 0;
  mk_opcode "vsububs" (m_VX 4 1536) m_VX_MASK m_PPCVEC 0;
  mk_opcode "vclzlsbb" (m_VXVA 4 1538 0) m_VXVA_MASK m_PPCVEC3 0;
  mk_opcode "vctzlsbb" (m_VXVA 4 1538 1) m_VXVA_MASK m_PPCVEC3 0;
  mk_opcode "vnegw" (m_VXVA 4 1538 6) m_VXVA_MASK m_PPCVEC3 0;
  mk_opcode "vnegd" (m_VXVA 4 1538 7) m_VXVA_MASK m_PPCVEC3 0;
  mk_opcode "vprtybw" (m_VXVA 4 1538 8) m_VXVA_MASK m_PPCVEC3 0;
  mk_opcode "vprtybd" (m_VXVA 4 1538 9) m_VXVA_MASK m_PPCVEC3 0;
  mk_opcode "vprtybq" (m_VXVA 4 1538 10) m_VXVA_MASK m_PPCVEC3 0;
  mk_opcode "vextsb2w" (m_VXVA 4 1538 16) m_VXVA_MASK m_PPCVEC3 0;
  mk_opcode "vextsh2w" (m_VXVA 4 1538 17) m_VXVA_MASK m_PPCVEC3 0;
  mk_opcode "vextsb2d" (m_VXVA 4 1538 24) m_VXVA_MASK m_PPCVEC3 0;
  mk_opcode "vextsh2d" (m_VXVA 4 1538 25) m_VXVA_MASK m_PPCVEC3 0;
  mk_opcode "vextsw2d" (m_VXVA 4 1538 26) m_VXVA_MASK m_PPCVEC3 0;
  mk_opcode "vctzb" (m_VXVA 4 1538 28) m_VXVA_MASK m_PPCVEC3 0;
  mk_opcode "vctzh" (m_VXVA 4 1538 29) m_VXVA_MASK m_PPCVEC3 0;
  mk_opcode "vctzw" (m_VXVA 4 1538 30) m_VXVA_MASK m_PPCVEC3 0;
  mk_opcode "vctzd" (m_VXVA 4 1538 31) m_VXVA_MASK m_PPCVEC3 0;
  mk_opcode "mfvscr" (m_VX 4 1540) m_VXVAVB_MASK m_PPCVEC 0;
  mk_opcode "vcmpgtub." (m_VXR 4 518 1) m_VXR_MASK m_PPCVEC 0;
  mk_opcode "udi8fcm." (m_APU 4 771 0) m_APU_MASK m_PPC440 0;
  mk_opcode "udi8fcm" (m_APU 4 771 1) m_APU_MASK m_PPC440 0;
  mk_opcode "vsum4ubs" (m_VX 4 1544) m_VX_MASK m_PPCVEC 0;
  mk_opcode "vextublx" (m_VX 4 1549) m_VX_MASK m_PPCVEC3 0;
  mk_opcode "vsubuhs" (m_VX 4 1600) m_VX_MASK m_PPCVEC 0;
  mk_opcode "mtvscr" (m_VX 4 1604) m_VXVDVA_MASK m_PPCVEC 0;
  mk_opcode "vcmpgtuh." (m_VXR 4 582 1) m_VXR_MASK m_PPCVEC 0;
  mk_opcode "vsum4shs" (m_VX 4 1608) m_VX_MASK m_PPCVEC 0;
  mk_opcode "udi9fcm." (m_APU 4 804 0) m_APU_MASK m_PPC440 0;
  mk_opcode "udi9fcm" (m_APU 4 804 1) m_APU_MASK m_PPC440 0;
  mk_opcode "vextuhlx" (m_VX 4 1613) m_VX_MASK m_PPCVEC3 0;
  mk_opcode "vupkhsw" (m_VX 4 1614) m_VXVA_MASK m_PPCVEC2 0;
  mk_opcode "vsubuws" (m_VX 4 1664) m_VX_MASK m_PPCVEC 0;
  mk_opcode "vshasigmaw" (m_VX 4 1666) m_VX_MASK m_PPCVEC2 0;
  mk_opcode "veqv" (m_VX 4 1668) m_VX_MASK m_PPCVEC2 0;
  mk_opcode "vcmpgtuw." (m_VXR 4 646 1) m_VXR_MASK m_PPCVEC 0].
(* qtlib/ppc-opc.c:4335-4444 *)
Definition opcodes_08 : list opcode := [
  mk_opcode "udi10fcm." (m_APU 4 835 0) m_APU_MASK m_PPC440 0;
  mk_opcode "udi10fcm" (m_APU 4 835 1) m_APU_MASK m_PPC440 0;
  mk_opcode "vsum2sws" (m_VX 4 1672) m_VX_MASK m_PPCVEC 0;
  mk_opcode "vmrgow" (m_VX 4 1676) m_VX_MASK m_PPCVEC2 0;
  mk_opcode "vextuwlx" (m_VX 4 1677) m_VX_MASK m_PPCVEC3 0;
  mk_opcode "vshasigmad" (m_VX 4 1730) m_VX_MASK m_PPCVEC2 0;
  mk_opcode "vsrd" (m_VX 4 1732) m_VX_MASK m_PPCVEC2 0;
  mk_opcode "vcmpgtfp." (m_VXR 4 710 1) m_VXR_MASK m_PPCVEC 0;
  mk_opcode "udi11fcm." (m_APU 4 867 0) m_APU_MASK m_PPC440 0;
  mk_opcode "vcmpgtud." (m_VXR 4 711 1) m_VXR_MASK m_PPCVEC2 0;
  mk_opcode "udi11fcm" (m_APU 4 867 1) m_APU_MASK m_PPC440 0;
  mk_opcode "vupklsw" (m_VX 4 1742) m_VXVA_MASK m_PPCVEC2 0;
  mk_opcode "vsubsbs" (m_VX 4 1792) m_VX_MASK m_PPCVEC 0;
  mk_opcode "vclzb" (m_VX 4 1794) m_VXVA_MASK m_PPCVEC2 0;
  mk_opcode "vpopcntb" (m_VX 4 1795) m_VXVA_MASK m_PPCVEC2 0;
  mk_opcode "vsrv" (m_VX 4 1796) m_VX_MASK m_PPCVEC3 0;
  mk_opcode "vcmpgtsb." (m_VXR 4 774 1) m_VXR_MASK m_PPCVEC 0;
  mk_opcode "udi12fcm." (m_APU 4 899 0) m_APU_MASK m_PPC440 0;
  mk_opcode "udi12fcm" (m_APU 4 899 1) m_APU_MASK m_PPC440 0;
  mk_opcode "vsum4sbs" (m_VX 4 1800) m_VX_MASK m_PPCVEC 0;
  mk_opcode "vextubrx" (m_VX 4 1805) m_VX_MASK m_PPCVEC3 0;
  mk_opcode "maclhwuo" (m_XO 4 396 1 0) m_XO_MASK m_MULHW 0;
  mk_opcode "maclhwuo." (m_XO 4 396 1 1) m_XO_MASK m_MULHW 0;
  mk_opcode "vsubshs" (m_VX 4 1856) m_VX_MASK m_PPCVEC 0;
  mk_opcode "vclzh" (m_VX 4 1858) m_VXVA_MASK m_PPCVEC2 0;
  mk_opcode "vpopcnth" (m_VX 4 1859) m_VXVA_MASK m_PPCVEC2 0;
  mk_opcode "vslv" (m_VX 4 1860) m_VX_MASK m_PPCVEC3 0;
  mk_opcode "vcmpgtsh." (m_VXR 4 838 1) m_VXR_MASK m_PPCVEC 0;
  mk_opcode "vextuhrx" (m_VX 4 1869) m_VX_MASK m_PPCVEC3 0;
  mk_opcode "udi13fcm." (m_APU 4 931 0) m_APU_MASK m_PPC440 0;
  mk_opcode "udi13fcm" (m_APU 4 931 1) m_APU_MASK m_PPC440 0;
  mk_opcode "maclhwo" (m_XO 4 428 1 0) m_XO_MASK m_MULHW 0;
  mk_opcode "maclhwo." (m_XO 4 428 1 1) m_XO_MASK m_MULHW 0;
  mk_opcode "nmaclhwo" (m_XO 4 430 1 0) m_XO_MASK m_MULHW 0;
  mk_opcode "nmaclhwo." (m_XO 4 430 1 1) m_XO_MASK m_MULHW 0;
  mk_opcode "vsubsws" (m_VX 4 1920) m_VX_MASK m_PPCVEC 0;
  mk_opcode "vclzw" (m_VX 4 1922) m_VXVA_MASK m_PPCVEC2 0;
  mk_opcode "vpopcntw" (m_VX 4 1923) m_VXVA_MASK m_PPCVEC2 0;
  mk_opcode "vcmpgtsw." (m_VXR 4 902 1) m_VXR_MASK m_PPCVEC 0;
  mk_opcode "udi14fcm." (m_APU 4 963 0) m_APU_MASK m_PPC440 0;
  mk_opcode "udi14fcm" (m_APU 4 963 1) m_APU_MASK m_PPC440 0;
  mk_opcode "vsumsws" (m_VX 4 1928) m_VX_MASK m_PPCVEC 0;
  mk_opcode "vmrgew" (m_VX 4 1932) m_VX_MASK m_PPCVEC2 0;
  mk_opcode "vextuwrx" (m_VX 4 1933) m_VX_MASK m_PPCVEC3 0;
  mk_opcode "maclhwsuo" (m_XO 4 460 1 0) m_XO_MASK m_MULHW 0;
  mk_opcode "maclhwsuo." (m_XO 4 460 1 1) m_XO_MASK m_MULHW 0;
  mk_opcode "vclzd" (m_VX 4 1986) m_VXVA_MASK m_PPCVEC2 0;
  mk_opcode "vpopcntd" (m_VX 4 1987) m_VXVA_MASK m_PPCVEC2 0;
  mk_opcode "vcmpbfp." (m_VXR 4 966 1) m_VXR_MASK m_PPCVEC 0;
  mk_opcode "udi15fcm." (m_APU 4 995 0) m_APU_MASK m_PPC440 0;
  mk_opcode "vcmpgtsd." (m_VXR 4 967 1) m_VXR_MASK m_PPCVEC2 0;
  mk_opcode "udi15fcm" (m_APU 4 995 1) m_APU_MASK m_PPC440 0;
  mk_opcode "maclhwso" (m_XO 4 492 1 0) m_XO_MASK m_MULHW 0;
  mk_opcode "maclhwso." (m_XO 4 492 1 1) m_XO_MASK m_MULHW 0;
  mk_opcode "nmaclhwso" (m_XO 4 494 1 0) m_XO_MASK m_MULHW 0;
  mk_opcode "nmaclhwso." (m_XO 4 494 1 1) m_XO_MASK m_MULHW 0;
  mk_opcode "dcbz_l" (m_X 4 1014) m_XRT_MASK m_PPCPS 0;
  mk_opcode "mulli" (m_OP 7) m_OP_MASK m_PPCCOM m_PPCVLE;
  mk_opcode "muli" (m_OP 7) m_OP_MASK m_PWRCOM m_PPCVLE;
  mk_opcode "subfic" (m_OP 8) m_OP_MASK m_PPCCOM m_PPCVLE;
  mk_opcode "sfi" (m_OP 8) m_OP_MASK m_PWRCOM m_PPCVLE;
  mk_opcode "dozi" (m_OP 9) m_OP_MASK m_M601 m_PPCVLE;
  mk_opcode "cmplwi" (m_OPL 10 0) m_OPL_MASK m_PPCCOM m_PPCVLE;
  mk_opcode "cmpldi" (m_OPL 10 1) m_OPL_MASK m_PPC64 m_PPCVLE;
  mk_opcode "cmpli" (m_OP 10) m_OP_MASK m_PPC m_PPCVLE;
  mk_opcode "cmpli" (m_OP 10) m_OP_MASK m_PWRCOM (m_PPC .| m_PPCVLE);
  mk_opcode "cmpwi" (m_OPL 11 0) m_OPL_MASK m_PPCCOM m_PPCVLE;
  mk_opcode "cmpdi" (m_OPL 11 1) m_OPL_MASK m_PPC64 m_PPCVLE;
  mk_opcode "cmpi" (m_OP 11) m_OP_MASK m_PPC m_PPCVLE;
  mk_opcode "cmpi" (m_OP 11) m_OP_MASK m_PWRCOM (m_PPC .| m_PPCVLE);
  mk_opcode "addic" (m_OP 12) m_OP_MASK m_PPCCOM m_PPCVLE;
  mk_opcode "ai" (m_OP 12) m_OP_MASK m_PWRCOM m_PPCVLE;
  mk_opcode "subic" (m_OP 12) m_OP_MASK m_PPCCOM m_PPCVLE;
  mk_opcode "addic." (m_OP 13) m_OP_MASK m_PPCCOM m_PPCVLE;
  mk_opcode "ai." (m_OP 13) m_OP_MASK m_PWRCOM m_PPCVLE;
  mk_opcode "subic." (m_OP 13) m_OP_MASK m_PPCCOM m_PPCVLE;
  mk_opcode "li" (m_OP 14) m_DRA_MASK m_PPCCOM m_PPCVLE;
  mk_opcode "lil" (m_OP 14) m_DRA_MASK m_PWRCOM m_PPCVLE;
  mk_opcode "addi" (m_OP 14) m_OP_MASK m_PPCCOM m_PPCVLE;
  mk_opcode "cal" (m_OP 14) m_OP_MASK m_PWRCOM m_PPCVLE;
  mk_opcode "subi" (m_OP 14) m_OP_MASK m_PPCCOM m_PPCVLE;
  mk_opcode "la" (m_OP 14) m_OP_MASK m_PPCCOM m_PPCVLE;
  mk_opcode "lis" (m_OP 15) m_DRA_MASK m_PPCCOM m_PPCVLE;
  mk_opcode "liu" (m_OP 15) m_DRA_MASK m_PWRCOM m_PPCVLE;
  mk_opcode "addis" (m_OP 15) m_OP_MASK m_PPCCOM m_PPCVLE;
  mk_opcode "cau" (m_OP 15) m_OP_MASK m_PWRCOM m_PPCVLE;
  mk_opcode "subis" (m_OP 15) m_OP_MASK m_PPCCOM m_PPCVLE;
  mk_opcode "bdnz-" (m_BBO 16 m_BODNZ 0 0) m_BBOATBI_MASK m_PPCCOM m_PPCVLE;
  mk_opcode "bdnz+" (m_BBO 16 m_BODNZ 0 0) m_BBOATBI_MASK m_PPCCOM m_PPCVLE;
  mk_opcode "bdnz" (m_BBO 16 m_BODNZ 0 0) m_BBOATBI_MASK m_PPCCOM m_PPCVLE;
  mk_opcode "bdn" (m_BBO 16 m_BODNZ 0 0) m_BBOATBI_MASK m_PWRCOM m_PPCVLE;
  mk_opcode "bdnzl-" (m_BBO 16 m_BODNZ 0 1) m_BBOATBI_MASK m_PPCCOM m_PPCVLE;
  mk_opcode "bdnzl+" (m_BBO 16 m_BODNZ 0 1) m_BBOATBI_MASK m_PPCCOM m_PPCVLE;
  mk_opcode "bdnzl" (m_BBO 16 m_BODNZ 0 1) m_BBOATBI_MASK m_PPCCOM m_PPCVLE;
  mk_opcode "bdnl" (m_BBO 16 m_BODNZ 0 1) m_BBOATBI_MASK m_PWRCOM m_PPCVLE;
  mk_opcode "bdnza-" (m_BBO 16 m_BODNZ 1 0) m_BBOATBI_MASK m_PPCCOM m_PPCVLE;
  mk_opcode "bdnza+" (m_BBO 16 m_BODNZ 1 0) m_BBOATBI_MASK m_PPCCOM m_PPCVLE;
  mk_opcode "bdnza" (m_BBO 16 m_BODNZ 1 0) m_BBOATBI_MASK m_PPCCOM m_PPCVLE;
  mk_opcode "bdna" (m_BBO 16 m_BODNZ 1 0) m_BBOATBI_MASK m_PWRCOM m_PPCVLE;
  mk_opcode "bdnzla-" (m_BBO 16 m_BODNZ 1 1) m_BBOATBI_MASK m_PPCCOM m_PPCVLE].
(* qtlib/ppc-opc.c:4445-4546 *)
Definition opcodes_09 : list opcode := [
  mk_opcode "bdnzla+" (m_BBO 16 m_BODNZ 1 1) m_BBOATBI_MASK m_PPCCOM m_PPCVLE;
  mk_opcode "bdnzla" (m_BBO 16 m_BODNZ 1 1) m_BBOATBI_MASK m_PPCCOM m_PPCVLE;
  mk_opcode "bdnla" (m_BBO 16 m_BODNZ 1 1) m_BBOATBI_MASK m_PWRCOM m_PPCVLE;
  mk_opcode "bdz-" (m_BBO 16 m_BODZ 0 0) m_BBOATBI_MASK m_PPCCOM m_PPCVLE;
  mk_opcode "bdz+" (m_BBO 16 m_BODZ 0 0) m_BBOATBI_MASK m_PPCCOM m_PPCVLE;
  mk_opcode "bdz" (m_BBO 16 m_BODZ 0 0) m_BBOATBI_MASK m_COM m_PPCVLE;
  mk_opcode "bdzl-" (m_BBO 16 m_BODZ 0 1) m_BBOATBI_MASK m_PPCCOM m_PPCVLE;
  mk_opcode "bdzl+" (m_BBO 16 m_BODZ 0 1) m_BBOATBI_MASK m_PPCCOM m_PPCVLE;
  mk_opcode "bdzl" (m_BBO 16 m_BODZ 0 1) m_BBOATBI_MASK m_COM m_PPCVLE;
  mk_opcode "bdza-" (m_BBO 16 m_BODZ 1 0) m_BBOATBI_MASK m_PPCCOM m_PPCVLE;
  mk_opcode "bdza+" (m_BBO 16 m_BODZ 1 0) m_BBOATBI_MASK m_PPCCOM m_PPCVLE;
  mk_opcode "bdza" (m_BBO 16 m_BODZ 1 0) m_BBOATBI_MASK m_COM m_PPCVLE;
  mk_opcode "bdzla-" (m_BBO 16 m_BODZ 1 1) m_BBOATBI_MASK m_PPCCOM m_PPCVLE;
  mk_opcode "bdzla+" (m_BBO 16 m_BODZ 1 1) m_BBOATBI_MASK m_PPCCOM m_PPCVLE;
  mk_opcode "bdzla" (m_BBO 16 m_BODZ 1 1) m_BBOATBI_MASK m_COM m_PPCVLE;
  mk_opcode "bge-" (m_BBOCB 16 m_BOF m_CBLT 0 0) m_BBOATCB_MASK m_PPCCOM m_PPCVLE;
  mk_opcode "bge+" (m_BBOCB 16 m_BOF m_CBLT 0 0) m_BBOATCB_MASK m_PPCCOM m_PPCVLE;
  mk_opcode "bge" (m_BBOCB 16 m_BOF m_CBLT 0 0) m_BBOATCB_MASK m_COM m_PPCVLE;
  mk_opcode "bnl-" (m_BBOCB 16 m_BOF m_CBLT 0 0) m_BBOATCB_MASK m_PPCCOM m_PPCVLE;
  mk_opcode "bnl+" (m_BBOCB 16 m_BOF m_CBLT 0 0) m_BBOATCB_MASK m_PPCCOM m_PPCVLE;
  mk_opcode "bnl" (m_BBOCB 16 m_BOF m_CBLT 0 0) m_BBOATCB_MASK m_COM m_PPCVLE;
  mk_opcode "bgel-" (m_BBOCB 16 m_BOF m_CBLT 0 1) m_BBOATCB_MASK m_PPCCOM m_PPCVLE;
  mk_opcode "bgel+" (m_BBOCB 16 m_BOF m_CBLT 0 1) m_BBOATCB_MASK m_PPCCOM m_PPCVLE;
  mk_opcode "bgel" (m_BBOCB 16 m_BOF m_CBLT 0 1) m_BBOATCB_MASK m_COM m_PPCVLE;
  mk_opcode "bnll-" (m_BBOCB 16 m_BOF m_CBLT 0 1) m_BBOATCB_MASK m_PPCCOM m_PPCVLE;
  mk_opcode "bnll+" (m_BBOCB 16 m_BOF m_CBLT 0 1) m_BBOATCB_MASK m_PPCCOM m_PPCVLE;
  mk_opcode "bnll" (m_BBOCB 16 m_BOF m_CBLT 0 1) m_BBOATCB_MASK m_COM m_PPCVLE;
  mk_opcode "bgea-" (m_BBOCB 16 m_BOF m_CBLT 1 0) m_BBOATCB_MASK m_PPCCOM m_PPCVLE;
  mk_opcode "bgea+" (m_BBOCB 16 m_BOF m_CBLT 1 0) m_BBOATCB_MASK m_PPCCOM m_PPCVLE;
  mk_opcode "bgea" (m_BBOCB 16 m_BOF m_CBLT 1 0) m_BBOATCB_MASK m_COM m_PPCVLE;
  mk_opcode "bnla-" (m_BBOCB 16 m_BOF m_CBLT 1 0) m_BBOATCB_MASK m_PPCCOM m_PPCVLE;
  mk_opcode "bnla+" (m_BBOCB 16 m_BOF m_CBLT 1 0) m_BBOATCB_MASK m_PPCCOM m_PPCVLE;
  mk_opcode "bnla" (m_BBOCB 16 m_BOF m_CBLT 1 0) m_BBOATCB_MASK m_COM m_PPCVLE;
  mk_opcode "bgela-" (m_BBOCB 16 m_BOF m_CBLT 1 1) m_BBOATCB_MASK m_PPCCOM m_PPCVLE;
  mk_opcode "bgela+" (m_BBOCB 16 m_BOF m_CBLT 1 1) m_BBOATCB_MASK m_PPCCOM m_PPCVLE;
  mk_opcode "bgela" (m_BBOCB 16 m_BOF m_CBLT 1 1) m_BBOATCB_MASK m_COM m_PPCVLE;
  mk_opcode "bnlla-" (m_BBOCB 16 m_BOF m_CBLT 1 1) m_BBOATCB_MASK m_PPCCOM m_PPCVLE;
  mk_opcode "bnlla+" (m_BBOCB 16 m_BOF m_CBLT 1 1) m_BBOATCB_MASK m_PPCCOM m_PPCVLE;
  mk_opcode "bnlla" (m_BBOCB 16 m_BOF m_CBLT 1 1) m_BBOATCB_MASK m_COM m_PPCVLE;
  mk_opcode "ble-" (m_BBOCB 16 m_BOF m_CBGT 0 0) m_BBOATCB_MASK m_PPCCOM m_PPCVLE;
  mk_opcode "ble+" (m_BBOCB 16 m_BOF m_CBGT 0 0) m_BBOATCB_MASK m_PPCCOM m_PPCVLE;
  mk_opcode "ble" (m_BBOCB 16 m_BOF m_CBGT 0 0) m_BBOATCB_MASK m_COM m_PPCVLE;
  mk_opcode "bng-" (m_BBOCB 16 m_BOF m_CBGT 0 0) m_BBOATCB_MASK m_PPCCOM m_PPCVLE;
  mk_opcode "bng+" (m_BBOCB 16 m_BOF m_CBGT 0 0) m_BBOATCB_MASK m_PPCCOM m_PPCVLE;
  mk_opcode "bng" (m_BBOCB 16 m_BOF m_CBGT 0 0) m_BBOATCB_MASK m_COM m_PPCVLE;
  mk_opcode "blel-" (m_BBOCB 16 m_BOF m_CBGT 0 1) m_BBOATCB_MASK m_PPCCOM m_PPCVLE;
  mk_opcode "blel+" (m_BBOCB 16 m_BOF m_CBGT 0 1) m_BBOATCB_MASK m_PPCCOM m_PPCVLE;
  mk_opcode "blel" (m_BBOCB 16 m_BOF m_CBGT 0 1) m_BBOATCB_MASK m_COM m_PPCVLE;
  mk_opcode "bngl-" (m_BBOCB 16 m_BOF m_CBGT 0 1) m_BBOATCB_MASK m_PPCCOM m_PPCVLE;
  mk_opcode "bngl+" (m_BBOCB 16 m_BOF m_CBGT 0 1) m_BBOATCB_MASK m_PPCCOM m_PPCVLE;
  mk_opcode "bngl" (m_BBOCB 16 m_BOF m_CBGT 0 1) m_BBOATCB_MASK m_COM m_PPCVLE;
  mk_opcode "blea-" (m_BBOCB 16 m_BOF m_CBGT 1 0) m_BBOATCB_MASK m_PPCCOM m_PPCVLE;
  mk_opcode "blea+" (m_BBOCB 16 m_BOF m_CBGT 1 0) m_BBOATCB_MASK m_PPCCOM m_PPCVLE;
  mk_opcode "blea" (m_BBOCB 16 m_BOF m_CBGT 1 0) m_BBOATCB_MASK m_COM m_PPCVLE;
  mk_opcode "bnga-" (m_BBOCB 16 m_BOF m_CBGT 1 0) m_BBOATCB_MASK m_PPCCOM m_PPCVLE;
  mk_opcode "bnga+" (m_BBOCB 16 m_BOF m_CBGT 1 0) m_BBOATCB_MASK m_PPCCOM m_PPCVLE;
  mk_opcode "bnga" (m_BBOCB 16 m_BOF m_CBGT 1 0) m_BBOATCB_MASK m_COM m_PPCVLE;
  mk_opcode "blela-" (m_BBOCB 16 m_BOF m_CBGT 1 1) m_BBOATCB_MASK m_PPCCOM m_PPCVLE;
  mk_opcode "blela+" (m_BBOCB 16 m_BOF m_CBGT 1 1) m_BBOATCB_MASK m_PPCCOM m_PPCVLE;
  mk_opcode "blela" (m_BBOCB 16 m_BOF m_CBGT 1 1) m_BBOATCB_MASK m_COM m_PPCVLE;
  mk_opcode "bngla-" (m_BBOCB 16 m_BOF m_CBGT 1 1) m_BBOATCB_MASK m_PPCCOM m_PPCVLE;
  mk_opcode "bngla+" (m_BBOCB 16 m_BOF m_CBGT 1 1) m_BBOATCB_MASK m_PPCCOM m_PPCVLE;
  mk_opcode "bngla" (m_BBOCB 16 m_BOF m_CBGT 1 1) m_BBOATCB_MASK m_COM m_PPCVLE;
  mk_opcode "bne-" (m_BBOCB 16 m_BOF m_CBEQ 0 0) m_BBOATCB_MASK m_PPCCOM m_PPCVLE;
  mk_opcode "bne+" (m_BBOCB 16 m_BOF m_CBEQ 0 0) m_BBOATCB_MASK m_PPCCOM m_PPCVLE;
  mk_opcode "bne" (m_BBOCB 16 m_BOF m_CBEQ 0 0) m_BBOATCB_MASK m_COM m_PPCVLE;
  mk_opcode "bnel-" (m_BBOCB 16 m_BOF m_CBEQ 0 1) m_BBOATCB_MASK m_PPCCOM m_PPCVLE;
  mk_opcode "bnel+" (m_BBOCB 16 m_BOF m_CBEQ 0 1) m_BBOATCB_MASK m_PPCCOM m_PPCVLE;
  mk_opcode "bnel" (m_BBOCB 16 m_BOF m_CBEQ 0 1) m_BBOATCB_MASK m_COM m_PPCVLE;
  mk_opcode "bnea-" (m_BBOCB 16 m_BOF m_CBEQ 1 0) m_BBOATCB_MASK m_PPCCOM m_PPCVLE;
  mk_opcode "bnea+" (m_BBOCB 16 m_BOF m_CBEQ 1 0) m_BBOATCB_MASK m_PPCCOM m_PPCVLE;
  mk_opcode "bnea" (m_BBOCB 16 m_BOF m_CBEQ 1 0) m_BBOATCB_MASK m_COM m_PPCVLE;
  mk_opcode "bnela-" (m_BBOCB 16 m_BOF m_CBEQ 1 1) m_BBOATCB_MASK m_PPCCOM m_PPCVLE;
  mk_opcode "bnela+" (m_BBOCB 16 m_BOF m_CBEQ 1 1) m_BBOATCB_MASK m_PPCCOM m_PPCVLE;
  mk_opcode "bnela" (m_BBOCB 16 m_BOF m_CBEQ 1 1) m_BBOATCB_MASK m_COM m_PPCVLE;
  mk_opcode "bns-" (m_BBOCB 16 m_BOF m_CBSO 0 0) m_BBOATCB_MASK m_PPCCOM m_PPCVLE;
  mk_opcode "bns+" (m_BBOCB 16 m_BOF m_CBSO 0 0) m_BBOATCB_MASK m_PPCCOM m_PPCVLE;
  mk_opcode "bns" (m_BBOCB 16 m_BOF m_CBSO 0 0) m_BBOATCB_MASK m_COM m_PPCVLE;
  mk_opcode "bnu-" (m_BBOCB 16 m_BOF m_CBSO 0 0) m_BBOATCB_MASK m_PPCCOM m_PPCVLE;
  mk_opcode "bnu+" (m_BBOCB 16 m_BOF m_CBSO 0 0) m_BBOATCB_MASK m_PPCCOM m_PPCVLE;
  mk_opcode "bnu" (m_BBOCB 16 m_BOF m_CBSO 0 0) m_BBOATCB_MASK m_PPCCOM m_PPCVLE;
  mk_opcode "bnsl-" (m_BBOCB 16 m_BOF m_CBSO 0 1) m_BBOATCB_MASK m_PPCCOM m_PPCVLE;
  mk_opcode "bnsl+" (m_BBOCB 16 m_BOF m_CBSO 0 1) m_BBOATCB_MASK m_PPCCOM m_PPCVLE;
  mk_opcode "bnsl" (m_BBOCB 16 m_BOF m_CBSO 0 1) m_BBOATCB_MASK m_COM m_PPCVLE;
  mk_opcode "bnul-" (m_BBOCB 16 m_BOF m_CBSO 0 1) m_BBOATCB_MASK m_PPCCOM m_PPCVLE;
  mk_opcode "bnul+" (m_BBOCB 16 m_BOF m_CBSO 0 1) m_BBOATCB_MASK m_PPCCOM m_PPCVLE;
  mk_opcode "bnul" (m_BBOCB 16 m_BOF m_CBSO 0 1) m_BBOATCB_MASK m_PPCCOM m_PPCVLE;
  mk_opcode "bnsa-" (m_BBOCB 16 m_BOF m_CBSO 1 0) m_BBOATCB_MASK m_PPCCOM m_PPCVLE;
  mk_opcode "bnsa+" (m_BBOCB 16 m_BOF m_CBSO 1 0) m_BBOATCB_MASK m_PPCCOM m_PPCVLE;
  mk_opcode "bnsa" (m_BBOCB 16 m_BOF m_CBSO 1 0) m_BBOATCB_MASK m_COM m_PPCVLE;
  mk_opcode "bnua-" (m_BBOCB 16 m_BOF m_CBSO 1 0) m_BBOATCB_MASK m_PPCCOM m_PPCVLE;
  mk_opcode "bnua+" (m_BBOCB 16 m_BOF m_CBSO 1 0) m_BBOATCB_MASK m_PPCCOM m_PPCVLE;
  mk_opcode "bnua" (m_BBOCB 16 m_BOF m_CBSO 1 0) m_BBOATCB_MASK m_PPCCOM m_PPCVLE;
  mk_opcode "bnsla-" (m_BBOCB 16 m_BOF m_CBSO 1 1) m_BBOATCB_MASK m_PPCCOM m_PPCVLE;
  mk_opcode "bnsla+" (m_BBOCB 16 m_BOF m_CBSO 1 1) m_BBOATCB_MASK m_PPCCOM m_PPCVLE;
  mk_opcode "bnsla" (m_BBOCB 16 m_BOF m_CBSO 1 1) m_BBOATCB_MASK m_COM m_PPCVLE;
  mk_opcode "bnula-" (m_BBOCB 16 m_BOF m_CBSO 1 1) m_BBOATCB_MASK m_PPCCOM m_PPCVLE;
  mk_opcode "bnula+" (m_BBOCB 16 m_BOF m_CBSO 1 1) m_BBOATCB_MASK m_PPCCOM m_PPCVLE;
  mk_opcode "bnula" (m_BBOCB 16 m_BOF m_CBSO 1 1) m_BBOATCB_MASK m_PPCCOM m_PPCVLE;
  mk_opcode "blt-" (m_BBOCB 16 m_BOT m_CBLT 0 0) m_BBOATCB_MASK m_PPCCOM m_PPCVLE].
(* qtlib/ppc-opc.c:4547-4649 *)
Definition opcodes_10 : list opcode := [
  mk_opcode "blt+" (m_BBOCB 16 m_BOT m_CBLT 0 0) m_BBOATCB_MASK m_PPCCOM m_PPCVLE;
  mk_opcode "blt" (m_BBOCB 16 m_BOT m_CBLT 0 0) m_BBOATCB_MASK m_COM m_PPCVLE;
  mk_opcode "bltl-" (m_BBOCB 16 m_BOT m_CBLT 0 1) m_BBOATCB_MASK m_PPCCOM m_PPCVLE;
  mk_opcode "bltl+" (m_BBOCB 16 m_BOT m_CBLT 0 1) m_BBOATCB_MASK m_PPCCOM m_PPCVLE;
  mk_opcode "bltl" (m_BBOCB 16 m_BOT m_CBLT 0 1) m_BBOATCB_MASK m_COM m_PPCVLE;
  mk_opcode "blta-" (m_BBOCB 16 m_BOT m_CBLT 1 0) m_BBOATCB_MASK m_PPCCOM m_PPCVLE;
  mk_opcode "blta+" (m_BBOCB 16 m_BOT m_CBLT 1 0) m_BBOATCB_MASK m_PPCCOM m_PPCVLE;
  mk_opcode "blta" (m_BBOCB 16 m_BOT m_CBLT 1 0) m_BBOATCB_MASK m_COM m_PPCVLE;
  mk_opcode "bltla-" (m_BBOCB 16 m_BOT m_CBLT 1 1) m_BBOATCB_MASK m_PPCCOM m_PPCVLE;
  mk_opcode "bltla+" (m_BBOCB 16 m_BOT m_CBLT 1 1) m_BBOATCB_MASK m_PPCCOM m_PPCVLE;
  mk_opcode "bltla" (m_BBOCB 16 m_BOT m_CBLT 1 1) m_BBOATCB_MASK m_COM m_PPCVLE;
  mk_opcode "bgt-" (m_BBOCB 16 m_BOT m_CBGT 0 0) m_BBOATCB_MASK m_PPCCOM m_PPCVLE;
  mk_opcode "bgt+" (m_BBOCB 16 m_BOT m_CBGT 0 0) m_BBOATCB_MASK m_PPCCOM m_PPCVLE;
  mk_opcode "bgt" (m_BBOCB 16 m_BOT m_CBGT 0 0) m_BBOATCB_MASK m_COM m_PPCVLE;
  mk_opcode "bgtl-" (m_BBOCB 16 m_BOT m_CBGT 0 1) m_BBOATCB_MASK m_PPCCOM m_PPCVLE;
  mk_opcode "bgtl+" (m_BBOCB 16 m_BOT m_CBGT 0 1) m_BBOATCB_MASK m_PPCCOM m_PPCVLE;
  mk_opcode "bgtl" (m_BBOCB 16 m_BOT m_CBGT 0 1) m_BBOATCB_MASK m_COM m_PPCVLE;
  mk_opcode "bgta-" (m_BBOCB 16 m_BOT m_CBGT 1 0) m_BBOATCB_MASK m_PPCCOM m_PPCVLE;
  mk_opcode "bgta+" (m_BBOCB 16 m_BOT m_CBGT 1 0) m_BBOATCB_MASK m_PPCCOM m_PPCVLE;
  mk_opcode "bgta" (m_BBOCB 16 m_BOT m_CBGT 1 0) m_BBOATCB_MASK m_COM m_PPCVLE;
  mk_opcode "bgtla-" (m_BBOCB 16 m_BOT m_CBGT 1 1) m_BBOATCB_MASK m_PPCCOM m_PPCVLE;
  mk_opcode "bgtla+" (m_BBOCB 16 m_BOT m_CBGT 1 1) m_BBOATCB_MASK m_PPCCOM m_PPCVLE;
  mk_opcode "bgtla" (m_BBOCB 16 m_BOT m_CBGT 1 1) m_BBOATCB_MASK m_COM m_PPCVLE;
  mk_opcode "beq-" (m_BBOCB 16 m_BOT m_CBEQ 0 0) m_BBOATCB_MASK m_PPCCOM m_PPCVLE;
  mk_opcode "beq+" (m_BBOCB 16 m_BOT m_CBEQ 0 0) m_BBOATCB_MASK m_PPCCOM m_PPCVLE;
  mk_opcode "beq" (m_BBOCB 16 m_BOT m_CBEQ 0 0) m_BBOATCB_MASK m_COM m_PPCVLE;
  mk_opcode "beql-" (m_BBOCB 16 m_BOT m_CBEQ 0 1) m_BBOATCB_MASK m_PPCCOM m_PPCVLE;
  mk_opcode "beql+" (m_BBOCB 16 m_BOT m_CBEQ 0 1) m_BBOATCB_MASK m_PPCCOM m_PPCVLE;
  mk_opcode "beql" (m_BBOCB 16 m_BOT m_CBEQ 0 1) m_BBOATCB_MASK m_COM m_PPCVLE;
  mk_opcode "beqa-" (m_BBOCB 16 m_BOT m_CBEQ 1 0) m_BBOATCB_MASK m_PPCCOM m_PPCVLE;
  mk_opcode "beqa+" (m_BBOCB 16 m_BOT m_CBEQ 1 0) m_BBOATCB_MASK m_PPCCOM m_PPCVLE;
  mk_opcode "beqa" (m_BBOCB 16 m_BOT m_CBEQ 1 0) m_BBOATCB_MASK m_COM m_PPCVLE;
  mk_opcode "beqla-" (m_BBOCB 16 m_BOT m_CBEQ 1 1) m_BBOATCB_MASK m_PPCCOM m_PPCVLE;
  mk_opcode "beqla+" (m_BBOCB 16 m_BOT m_CBEQ 1 1) m_BBOATCB_MASK m_PPCCOM m_PPCVLE;
  mk_opcode "beqla" (m_BBOCB 16 m_BOT m_CBEQ 1 1) m_BBOATCB_MASK m_COM m_PPCVLE;
  mk_opcode "bso-" (m_BBOCB 16 m_BOT m_CBSO 0 0) m_BBOATCB_MASK m_PPCCOM m_PPCVLE;
  mk_opcode "bso+" (m_BBOCB 16 m_BOT m_CBSO 0 0) m_BBOATCB_MASK m_PPCCOM m_PPCVLE;
  mk_opcode "bso" (m_BBOCB 16 m_BOT m_CBSO 0 0) m_BBOATCB_MASK m_COM m_PPCVLE;
  mk_opcode "bun-" (m_BBOCB 16 m_BOT m_CBSO 0 0) m_BBOATCB_MASK m_PPCCOM m_PPCVLE;
  mk_opcode "bun+" (m_BBOCB 16 m_BOT m_CBSO 0 0) m_BBOATCB_MASK m_PPCCOM m_PPCVLE;
  mk_opcode "bun" (m_BBOCB 16 m_BOT m_CBSO 0 0) m_BBOATCB_MASK m_PPCCOM m_PPCVLE;
  mk_opcode "bsol-" (m_BBOCB 16 m_BOT m_CBSO 0 1) m_BBOATCB_MASK m_PPCCOM m_PPCVLE;
  mk_opcode "bsol+" (m_BBOCB 16 m_BOT m_CBSO 0 1) m_BBOATCB_MASK m_PPCCOM m_PPCVLE;
  mk_opcode "bsol" (m_BBOCB 16 m_BOT m_CBSO 0 1) m_BBOATCB_MASK m_COM m_PPCVLE;
  mk_opcode "bunl-" (m_BBOCB 16 m_BOT m_CBSO 0 1) m_BBOATCB_MASK m_PPCCOM m_PPCVLE;
  mk_opcode "bunl+" (m_BBOCB 16 m_BOT m_CBSO 0 1) m_BBOATCB_MASK m_PPCCOM m_PPCVLE;
  mk_opcode "bunl" (m_BBOCB 16 m_BOT m_CBSO 0 1) m_BBOATCB_MASK m_PPCCOM m_PPCVLE;
  mk_opcode "bsoa-" (m_BBOCB 16 m_BOT m_CBSO 1 0) m_BBOATCB_MASK m_PPCCOM m_PPCVLE;
  mk_opcode "bsoa+" (m_BBOCB 16 m_BOT m_CBSO 1 0) m_BBOATCB_MASK m_PPCCOM m_PPCVLE;
  mk_opcode "bsoa" (m_BBOCB 16 m_BOT m_CBSO 1 0) m_BBOATCB_MASK m_COM m_PPCVLE;
  mk_opcode "buna-" (m_BBOCB 16 m_BOT m_CBSO 1 0) m_BBOATCB_MASK m_PPCCOM m_PPCVLE;
  mk_opcode "buna+" (m_BBOCB 16 m_BOT m_CBSO 1 0) m_BBOATCB_MASK m_PPCCOM m_PPCVLE;
  mk_opcode "buna" (m_BBOCB 16 m_BOT m_CBSO 1 0) m_BBOATCB_MASK m_PPCCOM m_PPCVLE;
  mk_opcode "bsola-" (m_BBOCB 16 m_BOT m_CBSO 1 1) m_BBOATCB_MASK m_PPCCOM m_PPCVLE;
  mk_opcode "bsola+" (m_BBOCB 16 m_BOT m_CBSO 1 1) m_BBOATCB_MASK m_PPCCOM m_PPCVLE;
  mk_opcode "bsola" (m_BBOCB 16 m_BOT m_CBSO 1 1) m_BBOATCB_MASK m_COM m_PPCVLE;
  mk_opcode "bunla-" (m_BBOCB 16 m_BOT m_CBSO 1 1) m_BBOATCB_MASK m_PPCCOM m_PPCVLE;
  mk_opcode "bunla+" (m_BBOCB 16 m_BOT m_CBSO 1 1) m_BBOATCB_MASK m_PPCCOM m_PPCVLE;
  mk_opcode "bunla" (m_BBOCB 16 m_BOT m_CBSO 1 1) m_BBOATCB_MASK m_PPCCOM m_PPCVLE;
  mk_opcode "bdnzf-" (m_BBO 16 m_BODNZF 0 0) m_BBOY_MASK m_PPCCOM (m_ISA_V2 .| m_PPCVLE);
  mk_opcode "bdnzf+" (m_BBO 16 m_BODNZF 0 0) m_BBOY_MASK m_PPCCOM (m_ISA_V2 .| m_PPCVLE);
  mk_opcode "bdnzf" (m_BBO 16 m_BODNZF 0 0) m_BBOY_MASK m_PPCCOM m_PPCVLE;
  mk_opcode "bdnzfl-" (m_BBO 16 m_BODNZF 0 1) m_BBOY_MASK m_PPCCOM (m_ISA_V2 .| m_PPCVLE);
  mk_opcode "bdnzfl+" (m_BBO 16 m_BODNZF 0 1) m_BBOY_MASK m_PPCCOM (m_ISA_V2 .| m_PPCVLE);
  mk_opcode "bdnzfl" (m_BBO 16 m_BODNZF 0 1) m_BBOY_MASK m_PPCCOM m_PPCVLE;
  mk_opcode "bdnzfa-" (m_BBO 16 m_BODNZF 1 0) m_BBOY_MASK m_PPCCOM (m_ISA_V2 .| m_PPCVLE);
  mk_opcode "bdnzfa+" (m_BBO 16 m_BODNZF 1 0) m_BBOY_MASK m_PPCCOM (m_ISA_V2 .| m_PPCVLE);
  mk_opcode "bdnzfa" (m_BBO 16 m_BODNZF 1 0) m_BBOY_MASK m_PPCCOM m_PPCVLE;
  mk_opcode "bdnzfla-" (m_BBO 16 m_BODNZF 1 1) m_BBOY_MASK m_PPCCOM (m_ISA_V2 .| m_PPCVLE);
  mk_opcode "bdnzfla+" (m_BBO 16 m_BODNZF 1 1) m_BBOY_MASK m_PPCCOM (m_ISA_V2 .| m_PPCVLE);
  mk_opcode "bdnzfla" (m_BBO 16 m_BODNZF 1 1) m_BBOY_MASK m_PPCCOM m_PPCVLE;
  mk_opcode "bdzf-" (m_BBO 16 m_BODZF 0 0) m_BBOY_MASK m_PPCCOM (m_ISA_V2 .| m_PPCVLE);
  mk_opcode "bdzf+" (m_BBO 16 m_BODZF 0 0) m_BBOY_MASK m_PPCCOM (m_ISA_V2 .| m_PPCVLE);
  mk_opcode "bdzf" (m_BBO 16 m_BODZF 0 0) m_BBOY_MASK m_PPCCOM m_PPCVLE;
  mk_opcode "bdzfl-" (m_BBO 16 m_BODZF 0 1) m_BBOY_MASK m_PPCCOM (m_ISA_V2 .| m_PPCVLE);
  mk_opcode "bdzfl+" (m_BBO 16 m_BODZF 0 1) m_BBOY_MASK m_PPCCOM (m_ISA_V2 .| m_PPCVLE);
  mk_opcode "bdzfl" (m_BBO 16 m_BODZF 0 1) m_BBOY_MASK m_PPCCOM m_PPCVLE;
  mk_opcode "bdzfa-" (m_BBO 16 m_BODZF 1 0) m_BBOY_MASK m_PPCCOM (m_ISA_V2 .| m_PPCVLE);
  mk_opcode "bdzfa+" (m_BBO 16 m_BODZF 1 0) m_BBOY_MASK m_PPCCOM (m_ISA_V2 .| m_PPCVLE);
  mk_opcode "bdzfa" (m_BBO 16 m_BODZF 1 0) m_BBOY_MASK m_PPCCOM m_PPCVLE;
  mk_opcode "bdzfla-" (m_BBO 16 m_BODZF 1 1) m_BBOY_MASK m_PPCCOM (m_ISA_V2 .| m_PPCVLE);
  mk_opcode "bdzfla+" (m_BBO 16 m_BODZF 1 1) m_BBOY_MASK m_PPCCOM (m_ISA_V2 .| m_PPCVLE);
  mk_opcode "bdzfla" (m_BBO 16 m_BODZF 1 1) m_BBOY_MASK m_PPCCOM m_PPCVLE;
  mk_opcode "bf-" (m_BBO 16 m_BOF 0 0) m_BBOAT_MASK m_PPCCOM m_PPCVLE;
  mk_opcode "bf+" (m_BBO 16 m_BOF 0 0) m_BBOAT_MASK m_PPCCOM m_PPCVLE;
  mk_opcode "bf" (m_BBO 16 m_BOF 0 0) m_BBOAT_MASK m_PPCCOM m_PPCVLE;
  mk_opcode "bbf" (m_BBO 16 m_BOF 0 0) m_BBOAT_MASK m_PWRCOM m_PPCVLE;
  mk_opcode "bfl-" (m_BBO 16 m_BOF 0 1) m_BBOAT_MASK m_PPCCOM m_PPCVLE;
  mk_opcode "bfl+" (m_BBO 16 m_BOF 0 1) m_BBOAT_MASK m_PPCCOM m_PPCVLE;
  mk_opcode "bfl" (m_BBO 16 m_BOF 0 1) m_BBOAT_MASK m_PPCCOM m_PPCVLE;
  mk_opcode "bbfl" (m_BBO 16 m_BOF 0 1) m_BBOAT_MASK m_PWRCOM m_PPCVLE;
  mk_opcode "bfa-" (m_BBO 16 m_BOF 1 0) m_BBOAT_MASK m_PPCCOM m_PPCVLE;
  mk_opcode "bfa+" (m_BBO 16 m_BOF 1 0) m_BBOAT_MASK m_PPCCOM m_PPCVLE;
  mk_opcode "bfa" (m_BBO 16 m_BOF 1 0) m_BBOAT_MASK m_PPCCOM m_PPCVLE;
  mk_opcode "bbfa" (m_BBO 16 m_BOF 1 0) m_BBOAT_MASK m_PWRCOM m_PPCVLE;
  mk_opcode "bfla-" (m_BBO 16 m_BOF 1 1) m_BBOAT_MASK m_PPCCOM m_PPCVLE;
  mk_opcode "bfla+" (m_BBO 16 m_BOF 1 1) m_BBOAT_MASK m_PPCCOM m_PPCVLE;
  mk_opcode "bfla" (m_BBO 16 m_BOF 1 1) m_BBOAT_MASK m_PPCCOM m_PPCVLE;
  mk_opcode "bbfla" (m_BBO 16 m_BOF 1 1) m_BBOAT_MASK m_PWRCOM m_PPCVLE;
  mk_opcode "bdnzt-" (m_BBO 16 m_BODNZT 0 0) m_BBOY_MASK m_PPCCOM (m_ISA_V2 .| m_PPCVLE)].
(* qtlib/ppc-opc.c:4650-4757 *)
Definition opcodes_11 : list opcode := [
  mk_opcode "bdnzt+" (m_BBO 16 m_BODNZT 0 0) m_BBOY_MASK m_PPCCOM (m_ISA_V2 .| m_PPCVLE);
  mk_opcode "bdnzt" (m_BBO 16 m_BODNZT 0 0) m_BBOY_MASK m_PPCCOM m_PPCVLE;
  mk_opcode "bdnztl-" (m_BBO 16 m_BODNZT 0 1) m_BBOY_MASK m_PPCCOM (m_ISA_V2 .| m_PPCVLE);
  mk_opcode "bdnztl+" (m_BBO 16 m_BODNZT 0 1) m_BBOY_MASK m_PPCCOM (m_ISA_V2 .| m_PPCVLE);
  mk_opcode "bdnztl" (m_BBO 16 m_BODNZT 0 1) m_BBOY_MASK m_PPCCOM m_PPCVLE;
  mk_opcode "bdnzta-" (m_BBO 16 m_BODNZT 1 0) m_BBOY_MASK m_PPCCOM (m_ISA_V2 .| m_PPCVLE);
  mk_opcode "bdnzta+" (m_BBO 16 m_BODNZT 1 0) m_BBOY_MASK m_PPCCOM (m_ISA_V2 .| m_PPCVLE);
  mk_opcode "bdnzta" (m_BBO 16 m_BODNZT 1 0) m_BBOY_MASK m_PPCCOM m_PPCVLE;
  mk_opcode "bdnztla-" (m_BBO 16 m_BODNZT 1 1) m_BBOY_MASK m_PPCCOM (m_ISA_V2 .| m_PPCVLE);
  mk_opcode "bdnztla+" (m_BBO 16 m_BODNZT 1 1) m_BBOY_MASK m_PPCCOM (m_ISA_V2 .| m_PPCVLE);
  mk_opcode "bdnztla" (m_BBO 16 m_BODNZT 1 1) m_BBOY_MASK m_PPCCOM m_PPCVLE;
  mk_opcode "bdzt-" (m_BBO 16 m_BODZT 0 0) m_BBOY_MASK m_PPCCOM (m_ISA_V2 .| m_PPCVLE);
  mk_opcode "bdzt+" (m_BBO 16 m_BODZT 0 0) m_BBOY_MASK m_PPCCOM (m_ISA_V2 .| m_PPCVLE);
  mk_opcode "bdzt" (m_BBO 16 m_BODZT 0 0) m_BBOY_MASK m_PPCCOM m_PPCVLE;
  mk_opcode "bdztl-" (m_BBO 16 m_BODZT 0 1) m_BBOY_MASK m_PPCCOM (m_ISA_V2 .| m_PPCVLE);
  mk_opcode "bdztl+" (m_BBO 16 m_BODZT 0 1) m_BBOY_MASK m_PPCCOM (m_ISA_V2 .| m_PPCVLE);
  mk_opcode "bdztl" (m_BBO 16 m_BODZT 0 1) m_BBOY_MASK m_PPCCOM m_PPCVLE;
  mk_opcode "bdzta-" (m_BBO 16 m_BODZT 1 0) m_BBOY_MASK m_PPCCOM (m_ISA_V2 .| m_PPCVLE);
  mk_opcode "bdzta+" (m_BBO 16 m_BODZT 1 0) m_BBOY_MASK m_PPCCOM (m_ISA_V2 .| m_PPCVLE);
  mk_opcode "bdzta" (m_BBO 16 m_BODZT 1 0) m_BBOY_MASK m_PPCCOM m_PPCVLE;
  mk_opcode "bdztla-" (m_BBO 16 m_BODZT 1 1) m_BBOY_MASK m_PPCCOM (m_ISA_V2 .| m_PPCVLE);
  mk_opcode "bdztla+" (m_BBO 16 m_BODZT 1 1) m_BBOY_MASK m_PPCCOM (m_ISA_V2 .| m_PPCVLE);
  mk_opcode "bdztla" (m_BBO 16 m_BODZT 1 1) m_BBOY_MASK m_PPCCOM m_PPCVLE;
  mk_opcode "bt-" (m_BBO 16 m_BOT 0 0) m_BBOAT_MASK m_PPCCOM m_PPCVLE;
  mk_opcode "bt+" (m_BBO 16 m_BOT 0 0) m_BBOAT_MASK m_PPCCOM m_PPCVLE;
  mk_opcode "bt" (m_BBO 16 m_BOT 0 0) m_BBOAT_MASK m_PPCCOM m_PPCVLE;
  mk_opcode "bbt" (m_BBO 16 m_BOT 0 0) m_BBOAT_MASK m_PWRCOM m_PPCVLE;
  mk_opcode "btl-" (m_BBO 16 m_BOT 0 1) m_BBOAT_MASK m_PPCCOM m_PPCVLE;
  mk_opcode "btl+" (m_BBO 16 m_BOT 0 1) m_BBOAT_MASK m_PPCCOM m_PPCVLE;
  mk_opcode "btl" (m_BBO 16 m_BOT 0 1) m_BBOAT_MASK m_PPCCOM m_PPCVLE;
  mk_opcode "bbtl" (m_BBO 16 m_BOT 0 1) m_BBOAT_MASK m_PWRCOM m_PPCVLE;
  mk_opcode "bta-" (m_BBO 16 m_BOT 1 0) m_BBOAT_MASK m_PPCCOM m_PPCVLE;
  mk_opcode "bta+" (m_BBO 16 m_BOT 1 0) m_BBOAT_MASK m_PPCCOM m_PPCVLE;
  mk_opcode "bta" (m_BBO 16 m_BOT 1 0) m_BBOAT_MASK m_PPCCOM m_PPCVLE;
  mk_opcode "bbta" (m_BBO 16 m_BOT 1 0) m_BBOAT_MASK m_PWRCOM m_PPCVLE;
  mk_opcode "btla-" (m_BBO 16 m_BOT 1 1) m_BBOAT_MASK m_PPCCOM m_PPCVLE;
  mk_opcode "btla+" (m_BBO 16 m_BOT 1 1) m_BBOAT_MASK m_PPCCOM m_PPCVLE;
  mk_opcode "btla" (m_BBO 16 m_BOT 1 1) m_BBOAT_MASK m_PPCCOM m_PPCVLE;
  mk_opcode "bbtla" (m_BBO 16 m_BOT 1 1) m_BBOAT_MASK m_PWRCOM m_PPCVLE;
  mk_opcode "bc-" (m_B 16 0 0) m_B_MASK m_PPCCOM m_PPCVLE;
  mk_opcode "bc+" (m_B 16 0 0) m_B_MASK m_PPCCOM m_PPCVLE;
  mk_opcode "bc" (m_B 16 0 0) m_B_MASK m_COM m_PPCVLE;
  mk_opcode "bcl-" (m_B 16 0 1) m_B_MASK m_PPCCOM m_PPCVLE;
  mk_opcode "bcl+" (m_B 16 0 1) m_B_MASK m_PPCCOM m_PPCVLE;
  mk_opcode "bcl" (m_B 16 0 1) m_B_MASK m_COM m_PPCVLE;
  mk_opcode "bca-" (m_B 16 1 0) m_B_MASK m_PPCCOM m_PPCVLE;
  mk_opcode "bca+" (m_B 16 1 0) m_B_MASK m_PPCCOM m_PPCVLE;
  mk_opcode "bca" (m_B 16 1 0) m_B_MASK m_COM m_PPCVLE;
  mk_opcode "bcla-" (m_B 16 1 1) m_B_MASK m_PPCCOM m_PPCVLE;
  mk_opcode "bcla+" (m_B 16 1 1) m_B_MASK m_PPCCOM m_PPCVLE;
  mk_opcode "bcla" (m_B 16 1 1) m_B_MASK m_COM m_PPCVLE;
  mk_opcode "svc" (m_SC 17 0 0) m_SC_MASK m_POWER m_PPCVLE;
  mk_opcode "scv" (m_SC 17 0 1) m_SC_MASK m_POWER9 m_PPCVLE;
  mk_opcode "svcl" (m_SC 17 0 1) m_SC_MASK m_POWER m_PPCVLE;
  mk_opcode "sc" (m_SC 17 1 0) m_SC_MASK m_PPC m_PPCVLE;
  mk_opcode "svca" (m_SC 17 1 0) m_SC_MASK m_PWRCOM m_PPCVLE;
  mk_opcode "svcla" (m_SC 17 1 1) m_SC_MASK m_POWER m_PPCVLE;
  mk_opcode "b" (m_B 18 0 0) m_B_MASK m_COM m_PPCVLE;
  mk_opcode "bl" (m_B 18 0 1) m_B_MASK m_COM m_PPCVLE;
  mk_opcode "ba" (m_B 18 1 0) m_B_MASK m_COM m_PPCVLE;
  mk_opcode "bla" (m_B 18 1 1) m_B_MASK m_COM m_PPCVLE;
  mk_opcode "mcrf" (m_XL 19 0) ((m_XLBB_MASK .| (3 .<< 21)) .| (3 .<< 16)) m_COM m_PPCVLE;
  mk_opcode "lnia" (m_DX 19 2) m_NODX_MASK m_POWER9 m_PPCVLE;
  mk_opcode "addpcis" (m_DX 19 2) m_DX_MASK m_POWER9 m_PPCVLE;
  mk_opcode "subpcis" (m_DX 19 2) m_DX_MASK m_POWER9 m_PPCVLE;
  mk_opcode "bdnzlr" (m_XLO 19 m_BODNZ 16 0) m_XLBOBIBB_MASK m_PPCCOM m_PPCVLE;
  mk_opcode "bdnzlr-" (m_XLO 19 m_BODNZ 16 0) m_XLBOBIBB_MASK m_PPCCOM (m_ISA_V2 .| m_PPCVLE);
  mk_opcode "bdnzlrl" (m_XLO 19 m_BODNZ 16 1) m_XLBOBIBB_MASK m_PPCCOM m_PPCVLE;
  mk_opcode "bdnzlrl-" (m_XLO 19 m_BODNZ 16 1) m_XLBOBIBB_MASK m_PPCCOM (m_ISA_V2 .| m_PPCVLE);
  mk_opcode "bdnzlr+" (m_XLO 19 m_BODNZP 16 0) m_XLBOBIBB_MASK m_PPCCOM (m_ISA_V2 .| m_PPCVLE);
  mk_opcode "bdnzlrl+" (m_XLO 19 m_BODNZP 16 1) m_XLBOBIBB_MASK m_PPCCOM (m_ISA_V2 .| m_PPCVLE);
  mk_opcode "bdzlr" (m_XLO 19 m_BODZ 16 0) m_XLBOBIBB_MASK m_PPCCOM m_PPCVLE;
  mk_opcode "bdzlr-" (m_XLO 19 m_BODZ 16 0) m_XLBOBIBB_MASK m_PPCCOM (m_ISA_V2 .| m_PPCVLE);
  mk_opcode "bdzlrl" (m_XLO 19 m_BODZ 16 1) m_XLBOBIBB_MASK m_PPCCOM m_PPCVLE;
  mk_opcode "bdzlrl-" (m_XLO 19 m_BODZ 16 1) m_XLBOBIBB_MASK m_PPCCOM (m_ISA_V2 .| m_PPCVLE);
  mk_opcode "bdzlr+" (m_XLO 19 m_BODZP 16 0) m_XLBOBIBB_MASK m_PPCCOM (m_ISA_V2 .| m_PPCVLE);
  mk_opcode "bdzlrl+" (m_XLO 19 m_BODZP 16 1) m_XLBOBIBB_MASK m_PPCCOM (m_ISA_V2 .| m_PPCVLE);
  mk_opcode "blr" (m_XLO 19 m_BOU 16 0) m_XLBOBIBB_MASK m_PPCCOM m_PPCVLE;
  mk_opcode "br" (m_XLO 19 m_BOU 16 0) m_XLBOBIBB_MASK m_PWRCOM m_PPCVLE;
  mk_opcode "blrl" (m_XLO 19 m_BOU 16 1) m_XLBOBIBB_MASK m_PPCCOM m_PPCVLE;
  mk_opcode "brl" (m_XLO 19 m_BOU 16 1) m_XLBOBIBB_MASK m_PWRCOM m_PPCVLE;
  mk_opcode "bdnzlr-" (m_XLO 19 m_BODNZM4 16 0) m_XLBOBIBB_MASK m_ISA_V2 m_PPCVLE;
  mk_opcode "bdnzlrl-" (m_XLO 19 m_BODNZM4 16 1) m_XLBOBIBB_MASK m_ISA_V2 m_PPCVLE;
  mk_opcode "bdnzlr+" (m_XLO 19 m_BODNZP4 16 0) m_XLBOBIBB_MASK m_ISA_V2 m_PPCVLE;
  mk_opcode "bdnzlrl+" (m_XLO 19 m_BODNZP4 16 1) m_XLBOBIBB_MASK m_ISA_V2 m_PPCVLE;
  mk_opcode "bdzlr-" (m_XLO 19 m_BODZM4 16 0) m_XLBOBIBB_MASK m_ISA_V2 m_PPCVLE;
  mk_opcode "bdzlrl-" (m_XLO 19 m_BODZM4 16 1) m_XLBOBIBB_MASK m_ISA_V2 m_PPCVLE;
  mk_opcode "bdzlr+" (m_XLO 19 m_BODZP4 16 0) m_XLBOBIBB_MASK m_ISA_V2 m_PPCVLE;
  mk_opcode "bdzlrl+" (m_XLO 19 m_BODZP4 16 1) m_XLBOBIBB_MASK m_ISA_V2 m_PPCVLE;
  mk_opcode "bgelr" (m_XLOCB 19 m_BOF m_CBLT 16 0) m_XLBOCBBB_MASK m_PPCCOM m_PPCVLE;
  mk_opcode "bgelr-" (m_XLOCB 19 m_BOF m_CBLT 16 0) m_XLBOCBBB_MASK m_PPCCOM (m_ISA_V2 .| m_PPCVLE);
  mk_opcode "bger" (m_XLOCB 19 m_BOF m_CBLT 16 0) m_XLBOCBBB_MASK m_PWRCOM m_PPCVLE;
  mk_opcode "bnllr" (m_XLOCB 19 m_BOF m_CBLT 16 0) m_XLBOCBBB_MASK m_PPCCOM m_PPCVLE;
  mk_opcode "bnllr-" (m_XLOCB 19 m_BOF m_CBLT 16 0) m_XLBOCBBB_MASK m_PPCCOM (m_ISA_V2 .| m_PPCVLE);
  mk_opcode "bnlr" (m_XLOCB 19 m_BOF m_CBLT 16 0) m_XLBOCBBB_MASK m_PWRCOM m_PPCVLE;
  mk_opcode "bgelrl" (m_XLOCB 19 m_BOF m_CBLT 16 1) m_XLBOCBBB_MASK m_PPCCOM m_PPCVLE;
  mk_opcode "bgelrl-" (m_XLOCB 19 m_BOF m_CBLT 16 1) m_XLBOCBBB_MASK m_PPCCOM (m_ISA_V2 .| m_PPCVLE);
  mk_opcode "bgerl" (m_XLOCB 19 m_BOF m_CBLT 16 1) m_XLBOCBBB_MASK m_PWRCOM m_PPCVLE;
  mk_opcode "bnllrl" (m_XLOCB 19 m_BOF m_CBLT 16 1) m_XLBOCBBB_MASK m_PPCCOM m_PPCVLE;
  mk_opcode "bnllrl-" (m_XLOCB 19 m_BOF m_CBLT 16 1) m_XLBOCBBB_MASK m_PPCCOM (m_ISA_V2 .| m_PPCVLE)].
(* qtlib/ppc-opc.c:4758-4857 *)
Definition opcodes_12 : list opcode := [
  mk_opcode "bnlrl" (m_XLOCB 19 m_BOF m_CBLT 16 1) m_XLBOCBBB_MASK m_PWRCOM m_PPCVLE;
  mk_opcode "blelr" (m_XLOCB 19 m_BOF m_CBGT 16 0) m_XLBOCBBB_MASK m_PPCCOM m_PPCVLE;
  mk_opcode "blelr-" (m_XLOCB 19 m_BOF m_CBGT 16 0) m_XLBOCBBB_MASK m_PPCCOM (m_ISA_V2 .| m_PPCVLE);
  mk_opcode "bler" (m_XLOCB 19 m_BOF m_CBGT 16 0) m_XLBOCBBB_MASK m_PWRCOM m_PPCVLE;
  mk_opcode "bnglr" (m_XLOCB 19 m_BOF m_CBGT 16 0) m_XLBOCBBB_MASK m_PPCCOM m_PPCVLE;
  mk_opcode "bnglr-" (m_XLOCB 19 m_BOF m_CBGT 16 0) m_XLBOCBBB_MASK m_PPCCOM (m_ISA_V2 .| m_PPCVLE);
  mk_opcode "bngr" (m_XLOCB 19 m_BOF m_CBGT 16 0) m_XLBOCBBB_MASK m_PWRCOM m_PPCVLE;
  mk_opcode "blelrl" (m_XLOCB 19 m_BOF m_CBGT 16 1) m_XLBOCBBB_MASK m_PPCCOM m_PPCVLE;
  mk_opcode "blelrl-" (m_XLOCB 19 m_BOF m_CBGT 16 1) m_XLBOCBBB_MASK m_PPCCOM (m_ISA_V2 .| m_PPCVLE);
  mk_opcode "blerl" (m_XLOCB 19 m_BOF m_CBGT 16 1) m_XLBOCBBB_MASK m_PWRCOM m_PPCVLE;
  mk_opcode "bnglrl" (m_XLOCB 19 m_BOF m_CBGT 16 1) m_XLBOCBBB_MASK m_PPCCOM m_PPCVLE;
  mk_opcode "bnglrl-" (m_XLOCB 19 m_BOF m_CBGT 16 1) m_XLBOCBBB_MASK m_PPCCOM (m_ISA_V2 .| m_PPCVLE);
  mk_opcode "bngrl" (m_XLOCB 19 m_BOF m_CBGT 16 1) m_XLBOCBBB_MASK m_PWRCOM m_PPCVLE;
  mk_opcode "bnelr" (m_XLOCB 19 m_BOF m_CBEQ 16 0) m_XLBOCBBB_MASK m_PPCCOM m_PPCVLE;
  mk_opcode "bnelr-" (m_XLOCB 19 m_BOF m_CBEQ 16 0) m_XLBOCBBB_MASK m_PPCCOM (m_ISA_V2 .| m_PPCVLE);
  mk_opcode "bner" (m_XLOCB 19 m_BOF m_CBEQ 16 0) m_XLBOCBBB_MASK m_PWRCOM m_PPCVLE;
  mk_opcode "bnelrl" (m_XLOCB 19 m_BOF m_CBEQ 16 1) m_XLBOCBBB_MASK m_PPCCOM m_PPCVLE;
  mk_opcode "bnelrl-" (m_XLOCB 19 m_BOF m_CBEQ 16 1) m_XLBOCBBB_MASK m_PPCCOM (m_ISA_V2 .| m_PPCVLE);
  mk_opcode "bnerl" (m_XLOCB 19 m_BOF m_CBEQ 16 1) m_XLBOCBBB_MASK m_PWRCOM m_PPCVLE;
  mk_opcode "bnslr" (m_XLOCB 19 m_BOF m_CBSO 16 0) m_XLBOCBBB_MASK m_PPCCOM m_PPCVLE;
  mk_opcode "bnslr-" (m_XLOCB 19 m_BOF m_CBSO 16 0) m_XLBOCBBB_MASK m_PPCCOM (m_ISA_V2 .| m_PPCVLE);
  mk_opcode "bnsr" (m_XLOCB 19 m_BOF m_CBSO 16 0) m_XLBOCBBB_MASK m_PWRCOM m_PPCVLE;
  mk_opcode "bnulr" (m_XLOCB 19 m_BOF m_CBSO 16 0) m_XLBOCBBB_MASK m_PPCCOM m_PPCVLE;
  mk_opcode "bnulr-" (m_XLOCB 19 m_BOF m_CBSO 16 0) m_XLBOCBBB_MASK m_PPCCOM (m_ISA_V2 .| m_PPCVLE);
  mk_opcode "bnslrl" (m_XLOCB 19 m_BOF m_CBSO 16 1) m_XLBOCBBB_MASK m_PPCCOM m_PPCVLE;
  mk_opcode "bnslrl-" (m_XLOCB 19 m_BOF m_CBSO 16 1) m_XLBOCBBB_MASK m_PPCCOM (m_ISA_V2 .| m_PPCVLE);
  mk_opcode "bnsrl" (m_XLOCB 19 m_BOF m_CBSO 16 1) m_XLBOCBBB_MASK m_PWRCOM m_PPCVLE;
  mk_opcode "bnulrl" (m_XLOCB 19 m_BOF m_CBSO 16 1) m_XLBOCBBB_MASK m_PPCCOM m_PPCVLE;
  mk_opcode "bnulrl-" (m_XLOCB 19 m_BOF m_CBSO 16 1) m_XLBOCBBB_MASK m_PPCCOM (m_ISA_V2 .| m_PPCVLE);
  mk_opcode "bgelr+" (m_XLOCB 19 m_BOFP m_CBLT 16 0) m_XLBOCBBB_MASK m_PPCCOM (m_ISA_V2 .| m_PPCVLE);
  mk_opcode "bnllr+" (m_XLOCB 19 m_BOFP m_CBLT 16 0) m_XLBOCBBB_MASK m_PPCCOM (m_ISA_V2 .| m_PPCVLE);
  mk_opcode "bgelrl+" (m_XLOCB 19 m_BOFP m_CBLT 16 1) m_XLBOCBBB_MASK m_PPCCOM (m_ISA_V2 .| m_PPCVLE);
  mk_opcode "bnllrl+" (m_XLOCB 19 m_BOFP m_CBLT 16 1) m_XLBOCBBB_MASK m_PPCCOM (m_ISA_V2 .| m_PPCVLE);
  mk_opcode "blelr+" (m_XLOCB 19 m_BOFP m_CBGT 16 0) m_XLBOCBBB_MASK m_PPCCOM (m_ISA_V2 .| m_PPCVLE);
  mk_opcode "bnglr+" (m_XLOCB 19 m_BOFP m_CBGT 16 0) m_XLBOCBBB_MASK m_PPCCOM (m_ISA_V2 .| m_PPCVLE);
  mk_opcode "blelrl+" (m_XLOCB 19 m_BOFP m_CBGT 16 1) m_XLBOCBBB_MASK m_PPCCOM (m_ISA_V2 .| m_PPCVLE);
  mk_opcode "bnglrl+" (m_XLOCB 19 m_BOFP m_CBGT 16 1) m_XLBOCBBB_MASK m_PPCCOM (m_ISA_V2 .| m_PPCVLE);
  mk_opcode "bnelr+" (m_XLOCB 19 m_BOFP m_CBEQ 16 0) m_XLBOCBBB_MASK m_PPCCOM (m_ISA_V2 .| m_PPCVLE);
  mk_opcode "bnelrl+" (m_XLOCB 19 m_BOFP m_CBEQ 16 1) m_XLBOCBBB_MASK m_PPCCOM (m_ISA_V2 .| m_PPCVLE);
  mk_opcode "bnslr+" (m_XLOCB 19 m_BOFP m_CBSO 16 0) m_XLBOCBBB_MASK m_PPCCOM (m_ISA_V2 .| m_PPCVLE);
  mk_opcode "bnulr+" (m_XLOCB 19 m_BOFP m_CBSO 16 0) m_XLBOCBBB_MASK m_PPCCOM (m_ISA_V2 .| m_PPCVLE);
  mk_opcode "bnslrl+" (m_XLOCB 19 m_BOFP m_CBSO 16 1) m_XLBOCBBB_MASK m_PPCCOM (m_ISA_V2 .| m_PPCVLE);
  mk_opcode "bnulrl+" (m_XLOCB 19 m_BOFP m_CBSO 16 1) m_XLBOCBBB_MASK m_PPCCOM (m_ISA_V2 .| m_PPCVLE);
  mk_opcode "bgelr-" (m_XLOCB 19 m_BOFM4 m_CBLT 16 0) m_XLBOCBBB_MASK m_ISA_V2 m_PPCVLE;
  mk_opcode "bnllr-" (m_XLOCB 19 m_BOFM4 m_CBLT 16 0) m_XLBOCBBB_MASK m_ISA_V2 m_PPCVLE;
  mk_opcode "bgelrl-" (m_XLOCB 19 m_BOFM4 m_CBLT 16 1) m_XLBOCBBB_MASK m_ISA_V2 m_PPCVLE;
  mk_opcode "bnllrl-" (m_XLOCB 19 m_BOFM4 m_CBLT 16 1) m_XLBOCBBB_MASK m_ISA_V2 m_PPCVLE;
  mk_opcode "blelr-" (m_XLOCB 19 m_BOFM4 m_CBGT 16 0) m_XLBOCBBB_MASK m_ISA_V2 m_PPCVLE;
  mk_opcode "bnglr-" (m_XLOCB 19 m_BOFM4 m_CBGT 16 0) m_XLBOCBBB_MASK m_ISA_V2 m_PPCVLE;
  mk_opcode "blelrl-" (m_XLOCB 19 m_BOFM4 m_CBGT 16 1) m_XLBOCBBB_MASK m_ISA_V2 m_PPCVLE;
  mk_opcode "bnglrl-" (m_XLOCB 19 m_BOFM4 m_CBGT 16 1) m_XLBOCBBB_MASK m_ISA_V2 m_PPCVLE;
  mk_opcode "bnelr-" (m_XLOCB 19 m_BOFM4 m_CBEQ 16 0) m_XLBOCBBB_MASK m_ISA_V2 m_PPCVLE;
  mk_opcode "bnelrl-" (m_XLOCB 19 m_BOFM4 m_CBEQ 16 1) m_XLBOCBBB_MASK m_ISA_V2 m_PPCVLE;
  mk_opcode "bnslr-" (m_XLOCB 19 m_BOFM4 m_CBSO 16 0) m_XLBOCBBB_MASK m_ISA_V2 m_PPCVLE;
  mk_opcode "bnulr-" (m_XLOCB 19 m_BOFM4 m_CBSO 16 0) m_XLBOCBBB_MASK m_ISA_V2 m_PPCVLE;
  mk_opcode "bnslrl-" (m_XLOCB 19 m_BOFM4 m_CBSO 16 1) m_XLBOCBBB_MASK m_ISA_V2 m_PPCVLE;
  mk_opcode "bnulrl-" (m_XLOCB 19 m_BOFM4 m_CBSO 16 1) m_XLBOCBBB_MASK m_ISA_V2 m_PPCVLE;
  mk_opcode "bgelr+" (m_XLOCB 19 m_BOFP4 m_CBLT 16 0) m_XLBOCBBB_MASK m_ISA_V2 m_PPCVLE;
  mk_opcode "bnllr+" (m_XLOCB 19 m_BOFP4 m_CBLT 16 0) m_XLBOCBBB_MASK m_ISA_V2 m_PPCVLE;
  mk_opcode "bgelrl+" (m_XLOCB 19 m_BOFP4 m_CBLT 16 1) m_XLBOCBBB_MASK m_ISA_V2 m_PPCVLE;
  mk_opcode "bnllrl+" (m_XLOCB 19 m_BOFP4 m_CBLT 16 1) m_XLBOCBBB_MASK m_ISA_V2 m_PPCVLE;
  mk_opcode "blelr+" (m_XLOCB 19 m_BOFP4 m_CBGT 16 0) m_XLBOCBBB_MASK m_ISA_V2 m_PPCVLE;
  mk_opcode "bnglr+" (m_XLOCB 19 m_BOFP4 m_CBGT 16 0) m_XLBOCBBB_MASK m_ISA_V2 m_PPCVLE;
  mk_opcode "blelrl+" (m_XLOCB 19 m_BOFP4 m_CBGT 16 1) m_XLBOCBBB_MASK m_ISA_V2 m_PPCVLE;
  mk_opcode "bnglrl+" (m_XLOCB 19 m_BOFP4 m_CBGT 16 1) m_XLBOCBBB_MASK m_ISA_V2 m_PPCVLE;
  mk_opcode "bnelr+" (m_XLOCB 19 m_BOFP4 m_CBEQ 16 0) m_XLBOCBBB_MASK m_ISA_V2 m_PPCVLE;
  mk_opcode "bnelrl+" (m_XLOCB 19 m_BOFP4 m_CBEQ 16 1) m_XLBOCBBB_MASK m_ISA_V2 m_PPCVLE;
  mk_opcode "bnslr+" (m_XLOCB 19 m_BOFP4 m_CBSO 16 0) m_XLBOCBBB_MASK m_ISA_V2 m_PPCVLE;
  mk_opcode "bnulr+" (m_XLOCB 19 m_BOFP4 m_CBSO 16 0) m_XLBOCBBB_MASK m_ISA_V2 m_PPCVLE;
  mk_opcode "bnslrl+" (m_XLOCB 19 m_BOFP4 m_CBSO 16 1) m_XLBOCBBB_MASK m_ISA_V2 m_PPCVLE;
  mk_opcode "bnulrl+" (m_XLOCB 19 m_BOFP4 m_CBSO 16 1) m_XLBOCBBB_MASK m_ISA_V2 m_PPCVLE;
  mk_opcode "bltlr" (m_XLOCB 19 m_BOT m_CBLT 16 0) m_XLBOCBBB_MASK m_PPCCOM m_PPCVLE;
  mk_opcode "bltlr-" (m_XLOCB 19 m_BOT m_CBLT 16 0) m_XLBOCBBB_MASK m_PPCCOM (m_ISA_V2 .| m_PPCVLE);
  mk_opcode "bltr" (m_XLOCB 19 m_BOT m_CBLT 16 0) m_XLBOCBBB_MASK m_PWRCOM m_PPCVLE;
  mk_opcode "bltlrl" (m_XLOCB 19 m_BOT m_CBLT 16 1) m_XLBOCBBB_MASK m_PPCCOM m_PPCVLE;
  mk_opcode "bltlrl-" (m_XLOCB 19 m_BOT m_CBLT 16 1) m_XLBOCBBB_MASK m_PPCCOM (m_ISA_V2 .| m_PPCVLE);
  mk_opcode "bltrl" (m_XLOCB 19 m_BOT m_CBLT 16 1) m_XLBOCBBB_MASK m_PWRCOM m_PPCVLE;
  mk_opcode "bgtlr" (m_XLOCB 19 m_BOT m_CBGT 16 0) m_XLBOCBBB_MASK m_PPCCOM m_PPCVLE;
  mk_opcode "bgtlr-" (m_XLOCB 19 m_BOT m_CBGT 16 0) m_XLBOCBBB_MASK m_PPCCOM (m_ISA_V2 .| m_PPCVLE);
  mk_opcode "bgtr" (m_XLOCB 19 m_BOT m_CBGT 16 0) m_XLBOCBBB_MASK m_PWRCOM m_PPCVLE;
  mk_opcode "bgtlrl" (m_XLOCB 19 m_BOT m_CBGT 16 1) m_XLBOCBBB_MASK m_PPCCOM m_PPCVLE;
  mk_opcode "bgtlrl-" (m_XLOCB 19 m_BOT m_CBGT 16 1) m_XLBOCBBB_MASK m_PPCCOM (m_ISA_V2 .| m_PPCVLE);
  mk_opcode "bgtrl" (m_XLOCB 19 m_BOT m_CBGT 16 1) m_XLBOCBBB_MASK m_PWRCOM m_PPCVLE;
  mk_opcode "beqlr" (m_XLOCB 19 m_BOT m_CBEQ 16 0) m_XLBOCBBB_MASK m_PPCCOM m_PPCVLE;
  mk_opcode "beqlr-" (m_XLOCB 19 m_BOT m_CBEQ 16 0) m_XLBOCBBB_MASK m_PPCCOM (m_ISA_V2 .| m_PPCVLE);
  mk_opcode "beqr" (m_XLOCB 19 m_BOT m_CBEQ 16 0) m_XLBOCBBB_MASK m_PWRCOM m_PPCVLE;
  mk_opcode "beqlrl" (m_XLOCB 19 m_BOT m_CBEQ 16 1) m_XLBOCBBB_MASK m_PPCCOM m_PPCVLE;
  mk_opcode "beqlrl-" (m_XLOCB 19 m_BOT m_CBEQ 16 1) m_XLBOCBBB_MASK m_PPCCOM (m_ISA_V2 .| m_PPCVLE);
  mk_opcode "beqrl" (m_XLOCB 19 m_BOT m_CBEQ 16 1) m_XLBOCBBB_MASK m_PWRCOM m_PPCVLE;
  mk_opcode "bsolr" (m_XLOCB 19 m_BOT m_CBSO 16 0) m_XLBOCBBB_MASK m_PPCCOM m_PPCVLE;
  mk_opcode "bsolr-" (m_XLOCB 19 m_BOT m_CBSO 16 0) m_XLBOCBBB_MASK m_PPCCOM (m_ISA_V2 .| m_PPCVLE);
  mk_opcode "bsor" (m_XLOCB 19 m_BOT m_CBSO 16 0) m_XLBOCBBB_MASK m_PWRCOM m_PPCVLE;
  mk_opcode "bunlr" (m_XLOCB 19 m_BOT m_CBSO 16 0) m_XLBOCBBB_MASK m_PPCCOM m_PPCVLE;
  mk_opcode "bunlr-" (m_XLOCB 19 m_BOT m_CBSO 16 0) m_XLBOCBBB_MASK m_PPCCOM (m_ISA_V2 .| m_PPCVLE);
  mk_opcode "bsolrl" (m_XLOCB 19 m_BOT m_CBSO 16 1) m_XLBOCBBB_MASK m_PPCCOM m_PPCVLE;
  mk_opcode "bsolrl-" (m_XLOCB 19 m_BOT m_CBSO 16 1) m_XLBOCBBB_MASK m_PPCCOM (m_ISA_V2 .| m_PPCVLE);
  mk_opcode "bsorl" (m_XLOCB 19 m_BOT m_CBSO 16 1) m_XLBOCBBB_MASK m_PWRCOM m_PPCVLE;
  mk_opcode "bunlrl" (m_XLOCB 19 m_BOT m_CBSO 16 1) m_XLBOCBBB_MASK m_PPCCOM m_PPCVLE;
  mk_opcode "bunlrl-" (m_XLOCB 19 m_BOT m_CBSO 16 1) m_XLBOCBBB_MASK m_PPCCOM (m_ISA_V2 .| m_PPCVLE);
  mk_opcode "bltlr+" (m_XLOCB 19 m_BOTP m_CBLT 16 0) m_XLBOCBBB_MASK m_PPCCOM (m_ISA_V2 .| m_PPCVLE)].
(* qtlib/ppc-opc.c:4858-4968 *)
Definition opcodes_13 : list opcode := [
  mk_opcode "bltlrl+" (m_XLOCB 19 m_BOTP m_CBLT 16 1) m_XLBOCBBB_MASK m_PPCCOM (m_ISA_V2 .| m_PPCVLE);
  mk_opcode "bgtlr+" (m_XLOCB 19 m_BOTP m_CBGT 16 0) m_XLBOCBBB_MASK m_PPCCOM (m_ISA_V2 .| m_PPCVLE);
  mk_opcode "bgtlrl+" (m_XLOCB 19 m_BOTP m_CBGT 16 1) m_XLBOCBBB_MASK m_PPCCOM (m_ISA_V2 .| m_PPCVLE);
  mk_opcode "beqlr+" (m_XLOCB 19 m_BOTP m_CBEQ 16 0) m_XLBOCBBB_MASK m_PPCCOM (m_ISA_V2 .| m_PPCVLE);
  mk_opcode "beqlrl+" (m_XLOCB 19 m_BOTP m_CBEQ 16 1) m_XLBOCBBB_MASK m_PPCCOM (m_ISA_V2 .| m_PPCVLE);
  mk_opcode "bsolr+" (m_XLOCB 19 m_BOTP m_CBSO 16 0) m_XLBOCBBB_MASK m_PPCCOM (m_ISA_V2 .| m_PPCVLE);
  mk_opcode "bunlr+" (m_XLOCB 19 m_BOTP m_CBSO 16 0) m_XLBOCBBB_MASK m_PPCCOM (m_ISA_V2 .| m_PPCVLE);
  mk_opcode "bsolrl+" (m_XLOCB 19 m_BOTP m_CBSO 16 1) m_XLBOCBBB_MASK m_PPCCOM (m_ISA_V2 .| m_PPCVLE);
  mk_opcode "bunlrl+" (m_XLOCB 19 m_BOTP m_CBSO 16 1) m_XLBOCBBB_MASK m_PPCCOM (m_ISA_V2 .| m_PPCVLE);
  mk_opcode "bltlr-" (m_XLOCB 19 m_BOTM4 m_CBLT 16 0) m_XLBOCBBB_MASK m_ISA_V2 m_PPCVLE;
  mk_opcode "bltlrl-" (m_XLOCB 19 m_BOTM4 m_CBLT 16 1) m_XLBOCBBB_MASK m_ISA_V2 m_PPCVLE;
  mk_opcode "bgtlr-" (m_XLOCB 19 m_BOTM4 m_CBGT 16 0) m_XLBOCBBB_MASK m_ISA_V2 m_PPCVLE;
  mk_opcode "bgtlrl-" (m_XLOCB 19 m_BOTM4 m_CBGT 16 1) m_XLBOCBBB_MASK m_ISA_V2 m_PPCVLE;
  mk_opcode "beqlr-" (m_XLOCB 19 m_BOTM4 m_CBEQ 16 0) m_XLBOCBBB_MASK m_ISA_V2 m_PPCVLE;
  mk_opcode "beqlrl-" (m_XLOCB 19 m_BOTM4 m_CBEQ 16 1) m_XLBOCBBB_MASK m_ISA_V2 m_PPCVLE;
  mk_opcode "bsolr-" (m_XLOCB 19 m_BOTM4 m_CBSO 16 0) m_XLBOCBBB_MASK m_ISA_V2 m_PPCVLE;
  mk_opcode "bunlr-" (m_XLOCB 19 m_BOTM4 m_CBSO 16 0) m_XLBOCBBB_MASK m_ISA_V2 m_PPCVLE;
  mk_opcode "bsolrl-" (m_XLOCB 19 m_BOTM4 m_CBSO 16 1) m_XLBOCBBB_MASK m_ISA_V2 m_PPCVLE;
  mk_opcode "bunlrl-" (m_XLOCB 19 m_BOTM4 m_CBSO 16 1) m_XLBOCBBB_MASK m_ISA_V2 m_PPCVLE;
  mk_opcode "bltlr+" (m_XLOCB 19 m_BOTP4 m_CBLT 16 0) m_XLBOCBBB_MASK m_ISA_V2 m_PPCVLE;
  mk_opcode "bltlrl+" (m_XLOCB 19 m_BOTP4 m_CBLT 16 1) m_XLBOCBBB_MASK m_ISA_V2 m_PPCVLE;
  mk_opcode "bgtlr+" (m_XLOCB 19 m_BOTP4 m_CBGT 16 0) m_XLBOCBBB_MASK m_ISA_V2 m_PPCVLE;
  mk_opcode "bgtlrl+" (m_XLOCB 19 m_BOTP4 m_CBGT 16 1) m_XLBOCBBB_MASK m_ISA_V2 m_PPCVLE;
  mk_opcode "beqlr+" (m_XLOCB 19 m_BOTP4 m_CBEQ 16 0) m_XLBOCBBB_MASK m_ISA_V2 m_PPCVLE;
  mk_opcode "beqlrl+" (m_XLOCB 19 m_BOTP4 m_CBEQ 16 1) m_XLBOCBBB_MASK m_ISA_V2 m_PPCVLE;
  mk_opcode "bsolr+" (m_XLOCB 19 m_BOTP4 m_CBSO 16 0) m_XLBOCBBB_MASK m_ISA_V2 m_PPCVLE;
  mk_opcode "bunlr+" (m_XLOCB 19 m_BOTP4 m_CBSO 16 0) m_XLBOCBBB_MASK m_ISA_V2 m_PPCVLE;
  mk_opcode "bsolrl+" (m_XLOCB 19 m_BOTP4 m_CBSO 16 1) m_XLBOCBBB_MASK m_ISA_V2 m_PPCVLE;
  mk_opcode "bunlrl+" (m_XLOCB 19 m_BOTP4 m_CBSO 16 1) m_XLBOCBBB_MASK m_ISA_V2 m_PPCVLE;
  mk_opcode "bdnzflr" (m_XLO 19 m_BODNZF 16 0) m_XLBOBB_MASK m_PPCCOM m_PPCVLE;
  mk_opcode "bdnzflr-" (m_XLO 19 m_BODNZF 16 0) m_XLBOBB_MASK m_PPCCOM (m_ISA_V2 .| m_PPCVLE);
  mk_opcode "bdnzflrl" (m_XLO 19 m_BODNZF 16 1) m_XLBOBB_MASK m_PPCCOM m_PPCVLE;
  mk_opcode "bdnzflrl-" (m_XLO 19 m_BODNZF 16 1) m_XLBOBB_MASK m_PPCCOM (m_ISA_V2 .| m_PPCVLE);
  mk_opcode "bdnzflr+" (m_XLO 19 m_BODNZFP 16 0) m_XLBOBB_MASK m_PPCCOM (m_ISA_V2 .| m_PPCVLE);
  mk_opcode "bdnzflrl+" (m_XLO 19 m_BODNZFP 16 1) m_XLBOBB_MASK m_PPCCOM (m_ISA_V2 .| m_PPCVLE);
  mk_opcode "bdzflr" (m_XLO 19 m_BODZF 16 0) m_XLBOBB_MASK m_PPCCOM m_PPCVLE;
  mk_opcode "bdzflr-" (m_XLO 19 m_BODZF 16 0) m_XLBOBB_MASK m_PPCCOM (m_ISA_V2 .| m_PPCVLE);
  mk_opcode "bdzflrl" (m_XLO 19 m_BODZF 16 1) m_XLBOBB_MASK m_PPCCOM m_PPCVLE;
  mk_opcode "bdzflrl-" (m_XLO 19 m_BODZF 16 1) m_XLBOBB_MASK m_PPCCOM (m_ISA_V2 .| m_PPCVLE);
  mk_opcode "bdzflr+" (m_XLO 19 m_BODZFP 16 0) m_XLBOBB_MASK m_PPCCOM (m_ISA_V2 .| m_PPCVLE);
  mk_opcode "bdzflrl+" (m_XLO 19 m_BODZFP 16 1) m_XLBOBB_MASK m_PPCCOM (m_ISA_V2 .| m_PPCVLE);
  mk_opcode "bflr" (m_XLO 19 m_BOF 16 0) m_XLBOBB_MASK m_PPCCOM m_PPCVLE;
  mk_opcode "bflr-" (m_XLO 19 m_BOF 16 0) m_XLBOBB_MASK m_PPCCOM (m_ISA_V2 .| m_PPCVLE);
  mk_opcode "bbfr" (m_XLO 19 m_BOF 16 0) m_XLBOBB_MASK m_PWRCOM m_PPCVLE;
  mk_opcode "bflrl" (m_XLO 19 m_BOF 16 1) m_XLBOBB_MASK m_PPCCOM m_PPCVLE;
  mk_opcode "bflrl-" (m_XLO 19 m_BOF 16 1) m_XLBOBB_MASK m_PPCCOM (m_ISA_V2 .| m_PPCVLE);
  mk_opcode "bbfrl" (m_XLO 19 m_BOF 16 1) m_XLBOBB_MASK m_PWRCOM m_PPCVLE;
  mk_opcode "bflr+" (m_XLO 19 m_BOFP 16 0) m_XLBOBB_MASK m_PPCCOM (m_ISA_V2 .| m_PPCVLE);
  mk_opcode "bflrl+" (m_XLO 19 m_BOFP 16 1) m_XLBOBB_MASK m_PPCCOM (m_ISA_V2 .| m_PPCVLE);
  mk_opcode "bflr-" (m_XLO 19 m_BOFM4 16 0) m_XLBOBB_MASK m_ISA_V2 m_PPCVLE;
  mk_opcode "bflrl-" (m_XLO 19 m_BOFM4 16 1) m_XLBOBB_MASK m_ISA_V2 m_PPCVLE;
  mk_opcode "bflr+" (m_XLO 19 m_BOFP4 16 0) m_XLBOBB_MASK m_ISA_V2 m_PPCVLE;
  mk_opcode "bflrl+" (m_XLO 19 m_BOFP4 16 1) m_XLBOBB_MASK m_ISA_V2 m_PPCVLE;
  mk_opcode "bdnztlr" (m_XLO 19 m_BODNZT 16 0) m_XLBOBB_MASK m_PPCCOM m_PPCVLE;
  mk_opcode "bdnztlr-" (m_XLO 19 m_BODNZT 16 0) m_XLBOBB_MASK m_PPCCOM (m_ISA_V2 .| m_PPCVLE);
  mk_opcode "bdnztlrl" (m_XLO 19 m_BODNZT 16 1) m_XLBOBB_MASK m_PPCCOM m_PPCVLE;
  mk_opcode "bdnztlrl-" (m_XLO 19 m_BODNZT 16 1) m_XLBOBB_MASK m_PPCCOM (m_ISA_V2 .| m_PPCVLE);
  mk_opcode "bdnztlr+" (m_XLO 19 m_BODNZTP 16 0) m_XLBOBB_MASK m_PPCCOM (m_ISA_V2 .| m_PPCVLE);
  mk_opcode "bdnztlrl+" (m_XLO 19 m_BODNZTP 16 1) m_XLBOBB_MASK m_PPCCOM (m_ISA_V2 .| m_PPCVLE);
  mk_opcode "bdztlr" (m_XLO 19 m_BODZT 16 0) m_XLBOBB_MASK m_PPCCOM m_PPCVLE;
  mk_opcode "bdztlr-" (m_XLO 19 m_BODZT 16 0) m_XLBOBB_MASK m_PPCCOM (m_ISA_V2 .| m_PPCVLE);
  mk_opcode "bdztlrl" (m_XLO 19 m_BODZT 16 1) m_XLBOBB_MASK m_PPCCOM m_PPCVLE;
  mk_opcode "bdztlrl-" (m_XLO 19 m_BODZT 16 1) m_XLBOBB_MASK m_PPCCOM (m_ISA_V2 .| m_PPCVLE);
  mk_opcode "bdztlr+" (m_XLO 19 m_BODZTP 16 0) m_XLBOBB_MASK m_PPCCOM (m_ISA_V2 .| m_PPCVLE);
  mk_opcode "bdztlrl+" (m_XLO 19 m_BODZTP 16 1) m_XLBOBB_MASK m_PPCCOM (m_ISA_V2 .| m_PPCVLE);
  mk_opcode "btlr" (m_XLO 19 m_BOT 16 0) m_XLBOBB_MASK m_PPCCOM m_PPCVLE;
  mk_opcode "btlr-" (m_XLO 19 m_BOT 16 0) m_XLBOBB_MASK m_PPCCOM (m_ISA_V2 .| m_PPCVLE);
  mk_opcode "bbtr" (m_XLO 19 m_BOT 16 0) m_XLBOBB_MASK m_PWRCOM m_PPCVLE;
  mk_opcode "btlrl" (m_XLO 19 m_BOT 16 1) m_XLBOBB_MASK m_PPCCOM m_PPCVLE;
  mk_opcode "btlrl-" (m_XLO 19 m_BOT 16 1) m_XLBOBB_MASK m_PPCCOM (m_ISA_V2 .| m_PPCVLE);
  mk_opcode "bbtrl" (m_XLO 19 m_BOT 16 1) m_XLBOBB_MASK m_PWRCOM m_PPCVLE;
  mk_opcode "btlr+" (m_XLO 19 m_BOTP 16 0) m_XLBOBB_MASK m_PPCCOM (m_ISA_V2 .| m_PPCVLE);
  mk_opcode "btlrl+" (m_XLO 19 m_BOTP 16 1) m_XLBOBB_MASK m_PPCCOM (m_ISA_V2 .| m_PPCVLE);
  mk_opcode "btlr-" (m_XLO 19 m_BOTM4 16 0) m_XLBOBB_MASK m_ISA_V2 m_PPCVLE;
  mk_opcode "btlrl-" (m_XLO 19 m_BOTM4 16 1) m_XLBOBB_MASK m_ISA_V2 m_PPCVLE;
  mk_opcode "btlr+" (m_XLO 19 m_BOTP4 16 0) m_XLBOBB_MASK m_ISA_V2 m_PPCVLE;
  mk_opcode "btlrl+" (m_XLO 19 m_BOTP4 16 1) m_XLBOBB_MASK m_ISA_V2 m_PPCVLE;
  mk_opcode "bclr-" (m_XLYLK 19 16 0 0) m_XLYBB_MASK m_PPCCOM m_PPCVLE;
  mk_opcode "bclrl-" (m_XLYLK 19 16 0 1) m_XLYBB_MASK m_PPCCOM m_PPCVLE;
  mk_opcode "bclr+" (m_XLYLK 19 16 1 0) m_XLYBB_MASK m_PPCCOM m_PPCVLE;
  mk_opcode "bclrl+" (m_XLYLK 19 16 1 1) m_XLYBB_MASK m_PPCCOM m_PPCVLE;
  mk_opcode "bclr" (m_XLLK 19 16 0) m_XLBH_MASK m_PPCCOM m_PPCVLE;
  mk_opcode "bcr" (m_XLLK 19 16 0) m_XLBB_MASK m_PWRCOM m_PPCVLE;
  mk_opcode "bclrl" (m_XLLK 19 16 1) m_XLBH_MASK m_PPCCOM m_PPCVLE;
  mk_opcode "bcrl" (m_XLLK 19 16 1) m_XLBB_MASK m_PWRCOM m_PPCVLE;
  mk_opcode "rfid" (m_XL 19 18) 0xffffffff m_PPC64 m_PPCVLE;
  mk_opcode "crnot" (m_XL 19 33) m_XL_MASK m_PPCCOM m_PPCVLE;
  mk_opcode "crnor" (m_XL 19 33) m_XL_MASK m_COM m_PPCVLE;
  mk_opcode "rfmci" (m_X 19 38) 0xffffffff ((m_PPCRFMCI .| m_PPCA2) .| m_PPC476) m_PPCVLE;
  mk_opcode "rfdi" (m_XL 19 39) 0xffffffff m_E500MC m_PPCVLE;
  mk_opcode "rfi" (m_XL 19 50) 0xffffffff m_COM m_PPCVLE;
  mk_opcode "rfci" (m_XL 19 51) 0xffffffff ((((m_PPC403 .| m_BOOKE) .| m_PPCE300) .| m_PPCA2) .| m_PPC476) m_PPCVLE;
  mk_opcode "rfscv" (m_XL 19 82) 0xffffffff m_POWER9 m_PPCVLE;
  mk_opcode "rfsvc" (m_XL 19 82) 0xffffffff m_POWER m_PPCVLE;
  mk_opcode "rfgi" (m_XL 19 102) 0xffffffff (m_E500MC .| m_PPCA2) m_PPCVLE;
  mk_opcode "crandc" (m_XL 19 129) m_XL_MASK m_COM m_PPCVLE;
  mk_opcode "rfebb" (m_XL 19 146) m_XLS_MASK m_POWER8 m_PPCVLE;
  mk_opcode "isync" (m_XL 19 150) 0xffffffff m_PPCCOM m_PPCVLE;
  mk_opcode "ics" (m_XL 19 150) 0xffffffff m_PWRCOM m_PPCVLE;
  mk_opcode "crclr" (m_XL 19 193) m_XL_MASK m_PPCCOM m_PPCVLE].
(* qtlib/ppc-opc.c:4969-5081 *)
Definition opcodes_14 : list opcode := [
  mk_opcode "crxor" (m_XL 19 193) m_XL_MASK m_COM m_PPCVLE;
  mk_opcode "dnh" (m_X 19 198) m_X_MASK m_E500MC m_PPCVLE;
  mk_opcode "crnand" (m_XL 19 225) m_XL_MASK m_COM m_PPCVLE;
  mk_opcode "crand" (m_XL 19 257) m_XL_MASK m_COM m_PPCVLE;
  mk_opcode "hrfid" (m_XL 19 274) 0xffffffff (m_POWER5 .| m_CELL) (m_PPC476 .| m_PPCVLE);
  mk_opcode "crset" (m_XL 19 289) m_XL_MASK m_PPCCOM m_PPCVLE;
  mk_opcode "creqv" (m_XL 19 289) m_XL_MASK m_COM m_PPCVLE;
  mk_opcode "urfid" (m_XL 19 306) 0xffffffff m_POWER9 m_PPCVLE;
  mk_opcode "stop" (m_XL 19 370) 0xffffffff m_POWER9 m_PPCVLE;
  mk_opcode "doze" (m_XL 19 402) 0xffffffff m_POWER6 (m_POWER9 .| m_PPCVLE);
  mk_opcode "crorc" (m_XL 19 417) m_XL_MASK m_COM m_PPCVLE;
  mk_opcode "nap" (m_XL 19 434) 0xffffffff m_POWER6 (m_POWER9 .| m_PPCVLE);
  mk_opcode "crmove" (m_XL 19 449) m_XL_MASK m_PPCCOM m_PPCVLE;
  mk_opcode "cror" (m_XL 19 449) m_XL_MASK m_COM m_PPCVLE;
  mk_opcode "sleep" (m_XL 19 466) 0xffffffff m_POWER6 (m_POWER9 .| m_PPCVLE);
  mk_opcode "rvwinkle" (m_XL 19 498) 0xffffffff m_POWER6 (m_POWER9 .| m_PPCVLE);
  mk_opcode "bctr" (m_XLO 19 m_BOU 528 0) m_XLBOBIBB_MASK m_COM m_PPCVLE;
  mk_opcode "bctrl" (m_XLO 19 m_BOU 528 1) m_XLBOBIBB_MASK m_COM m_PPCVLE;
  mk_opcode "bgectr" (m_XLOCB 19 m_BOF m_CBLT 528 0) m_XLBOCBBB_MASK m_PPCCOM m_PPCVLE;
  mk_opcode "bgectr-" (m_XLOCB 19 m_BOF m_CBLT 528 0) m_XLBOCBBB_MASK m_PPCCOM (m_ISA_V2 .| m_PPCVLE);
  mk_opcode "bnlctr" (m_XLOCB 19 m_BOF m_CBLT 528 0) m_XLBOCBBB_MASK m_PPCCOM m_PPCVLE;
  mk_opcode "bnlctr-" (m_XLOCB 19 m_BOF m_CBLT 528 0) m_XLBOCBBB_MASK m_PPCCOM (m_ISA_V2 .| m_PPCVLE);
  mk_opcode "bgectrl" (m_XLOCB 19 m_BOF m_CBLT 528 1) m_XLBOCBBB_MASK m_PPCCOM m_PPCVLE;
  mk_opcode "bgectrl-" (m_XLOCB 19 m_BOF m_CBLT 528 1) m_XLBOCBBB_MASK m_PPCCOM (m_ISA_V2 .| m_PPCVLE);
  mk_opcode "bnlctrl" (m_XLOCB 19 m_BOF m_CBLT 528 1) m_XLBOCBBB_MASK m_PPCCOM m_PPCVLE;
  mk_opcode "bnlctrl-" (m_XLOCB 19 m_BOF m_CBLT 528 1) m_XLBOCBBB_MASK m_PPCCOM (m_ISA_V2 .| m_PPCVLE);
  mk_opcode "blectr" (m_XLOCB 19 m_BOF m_CBGT 528 0) m_XLBOCBBB_MASK m_PPCCOM m_PPCVLE;
  mk_opcode "blectr-" (m_XLOCB 19 m_BOF m_CBGT 528 0) m_XLBOCBBB_MASK m_PPCCOM (m_ISA_V2 .| m_PPCVLE);
  mk_opcode "bngctr" (m_XLOCB 19 m_BOF m_CBGT 528 0) m_XLBOCBBB_MASK m_PPCCOM m_PPCVLE;
  mk_opcode "bngctr-" (m_XLOCB 19 m_BOF m_CBGT 528 0) m_XLBOCBBB_MASK m_PPCCOM (m_ISA_V2 .| m_PPCVLE);
  mk_opcode "blectrl" (m_XLOCB 19 m_BOF m_CBGT 528 1) m_XLBOCBBB_MASK m_PPCCOM m_PPCVLE;
  mk_opcode "blectrl-" (m_XLOCB 19 m_BOF m_CBGT 528 1) m_XLBOCBBB_MASK m_PPCCOM (m_ISA_V2 .| m_PPCVLE);
  mk_opcode "bngctrl" (m_XLOCB 19 m_BOF m_CBGT 528 1) m_XLBOCBBB_MASK m_PPCCOM m_PPCVLE;
  mk_opcode "bngctrl-" (m_XLOCB 19 m_BOF m_CBGT 528 1) m_XLBOCBBB_MASK m_PPCCOM (m_ISA_V2 .| m_PPCVLE);
  mk_opcode "bnectr" (m_XLOCB 19 m_BOF m_CBEQ 528 0) m_XLBOCBBB_MASK m_PPCCOM m_PPCVLE;
  mk_opcode "bnectr-" (m_XLOCB 19 m_BOF m_CBEQ 528 0) m_XLBOCBBB_MASK m_PPCCOM (m_ISA_V2 .| m_PPCVLE);
  mk_opcode "bnectrl" (m_XLOCB 19 m_BOF m_CBEQ 528 1) m_XLBOCBBB_MASK m_PPCCOM m_PPCVLE;
  mk_opcode "bnectrl-" (m_XLOCB 19 m_BOF m_CBEQ 528 1) m_XLBOCBBB_MASK m_PPCCOM (m_ISA_V2 .| m_PPCVLE);
  mk_opcode "bnsctr" (m_XLOCB 19 m_BOF m_CBSO 528 0) m_XLBOCBBB_MASK m_PPCCOM m_PPCVLE;
  mk_opcode "bnsctr-" (m_XLOCB 19 m_BOF m_CBSO 528 0) m_XLBOCBBB_MASK m_PPCCOM (m_ISA_V2 .| m_PPCVLE);
  mk_opcode "bnuctr" (m_XLOCB 19 m_BOF m_CBSO 528 0) m_XLBOCBBB_MASK m_PPCCOM m_PPCVLE;
  mk_opcode "bnuctr-" (m_XLOCB 19 m_BOF m_CBSO 528 0) m_XLBOCBBB_MASK m_PPCCOM (m_ISA_V2 .| m_PPCVLE);
  mk_opcode "bnsctrl" (m_XLOCB 19 m_BOF m_CBSO 528 1) m_XLBOCBBB_MASK m_PPCCOM m_PPCVLE;
  mk_opcode "bnsctrl-" (m_XLOCB 19 m_BOF m_CBSO 528 1) m_XLBOCBBB_MASK m_PPCCOM (m_ISA_V2 .| m_PPCVLE);
  mk_opcode "bnuctrl" (m_XLOCB 19 m_BOF m_CBSO 528 1) m_XLBOCBBB_MASK m_PPCCOM m_PPCVLE;
  mk_opcode "bnuctrl-" (m_XLOCB 19 m_BOF m_CBSO 528 1) m_XLBOCBBB_MASK m_PPCCOM (m_ISA_V2 .| m_PPCVLE);
  mk_opcode "bgectr+" (m_XLOCB 19 m_BOFP m_CBLT 528 0) m_XLBOCBBB_MASK m_PPCCOM (m_ISA_V2 .| m_PPCVLE);
  mk_opcode "bnlctr+" (m_XLOCB 19 m_BOFP m_CBLT 528 0) m_XLBOCBBB_MASK m_PPCCOM (m_ISA_V2 .| m_PPCVLE);
  mk_opcode "bgectrl+" (m_XLOCB 19 m_BOFP m_CBLT 528 1) m_XLBOCBBB_MASK m_PPCCOM (m_ISA_V2 .| m_PPCVLE);
  mk_opcode "bnlctrl+" (m_XLOCB 19 m_BOFP m_CBLT 528 1) m_XLBOCBBB_MASK m_PPCCOM (m_ISA_V2 .| m_PPCVLE);
  mk_opcode "blectr+" (m_XLOCB 19 m_BOFP m_CBGT 528 0) m_XLBOCBBB_MASK m_PPCCOM (m_ISA_V2 .| m_PPCVLE);
  mk_opcode "bngctr+" (m_XLOCB 19 m_BOFP m_CBGT 528 0) m_XLBOCBBB_MASK m_PPCCOM (m_ISA_V2 .| m_PPCVLE);
  mk_opcode "blectrl+" (m_XLOCB 19 m_BOFP m_CBGT 528 1) m_XLBOCBBB_MASK m_PPCCOM (m_ISA_V2 .| m_PPCVLE);
  mk_opcode "bngctrl+" (m_XLOCB 19 m_BOFP m_CBGT 528 1) m_XLBOCBBB_MASK m_PPCCOM (m_ISA_V2 .| m_PPCVLE);
  mk_opcode "bnectr+" (m_XLOCB 19 m_BOFP m_CBEQ 528 0) m_XLBOCBBB_MASK m_PPCCOM (m_ISA_V2 .| m_PPCVLE);
  mk_opcode "bnectrl+" (m_XLOCB 19 m_BOFP m_CBEQ 528 1) m_XLBOCBBB_MASK m_PPCCOM (m_ISA_V2 .| m_PPCVLE);
  mk_opcode "bnsctr+" (m_XLOCB 19 m_BOFP m_CBSO 528 0) m_XLBOCBBB_MASK m_PPCCOM (m_ISA_V2 .| m_PPCVLE);
  mk_opcode "bnuctr+" (m_XLOCB 19 m_BOFP m_CBSO 528 0) m_XLBOCBBB_MASK m_PPCCOM (m_ISA_V2 .| m_PPCVLE);
  mk_opcode "bnsctrl+" (m_XLOCB 19 m_BOFP m_CBSO 528 1) m_XLBOCBBB_MASK m_PPCCOM (m_ISA_V2 .| m_PPCVLE);
  mk_opcode "bnuctrl+" (m_XLOCB 19 m_BOFP m_CBSO 528 1) m_XLBOCBBB_MASK m_PPCCOM (m_ISA_V2 .| m_PPCVLE);
  mk_opcode "bgectr-" (m_XLOCB 19 m_BOFM4 m_CBLT 528 0) m_XLBOCBBB_MASK m_ISA_V2 m_PPCVLE;
  mk_opcode "bnlctr-" (m_XLOCB 19 m_BOFM4 m_CBLT 528 0) m_XLBOCBBB_MASK m_ISA_V2 m_PPCVLE;
  mk_opcode "bgectrl-" (m_XLOCB 19 m_BOFM4 m_CBLT 528 1) m_XLBOCBBB_MASK m_ISA_V2 m_PPCVLE;
  mk_opcode "bnlctrl-" (m_XLOCB 19 m_BOFM4 m_CBLT 528 1) m_XLBOCBBB_MASK m_ISA_V2 m_PPCVLE;
  mk_opcode "blectr-" (m_XLOCB 19 m_BOFM4 m_CBGT 528 0) m_XLBOCBBB_MASK m_ISA_V2 m_PPCVLE;
  mk_opcode "bngctr-" (m_XLOCB 19 m_BOFM4 m_CBGT 528 0) m_XLBOCBBB_MASK m_ISA_V2 m_PPCVLE;
  mk_opcode "blectrl-" (m_XLOCB 19 m_BOFM4 m_CBGT 528 1) m_XLBOCBBB_MASK m_ISA_V2 m_PPCVLE;
  mk_opcode "bngctrl-" (m_XLOCB 19 m_BOFM4 m_CBGT 528 1) m_XLBOCBBB_MASK m_ISA_V2 m_PPCVLE;
  mk_opcode "bnectr-" (m_XLOCB 19 m_BOFM4 m_CBEQ 528 0) m_XLBOCBBB_MASK m_ISA_V2 m_PPCVLE;
  mk_opcode "bnectrl-" (m_XLOCB 19 m_BOFM4 m_CBEQ 528 1) m_XLBOCBBB_MASK m_ISA_V2 m_PPCVLE;
  mk_opcode "bnsctr-" (m_XLOCB 19 m_BOFM4 m_CBSO 528 0) m_XLBOCBBB_MASK m_ISA_V2 m_PPCVLE;
  mk_opcode "bnuctr-" (m_XLOCB 19 m_BOFM4 m_CBSO 528 0) m_XLBOCBBB_MASK m_ISA_V2 m_PPCVLE;
  mk_opcode "bnsctrl-" (m_XLOCB 19 m_BOFM4 m_CBSO 528 1) m_XLBOCBBB_MASK m_ISA_V2 m_PPCVLE;
  mk_opcode "bnuctrl-" (m_XLOCB 19 m_BOFM4 m_CBSO 528 1) m_XLBOCBBB_MASK m_ISA_V2 m_PPCVLE;
  mk_opcode "bgectr+" (m_XLOCB 19 m_BOFP4 m_CBLT 528 0) m_XLBOCBBB_MASK m_ISA_V2 m_PPCVLE;
  mk_opcode "bnlctr+" (m_XLOCB 19 m_BOFP4 m_CBLT 528 0) m_XLBOCBBB_MASK m_ISA_V2 m_PPCVLE;
  mk_opcode "bgectrl+" (m_XLOCB 19 m_BOFP4 m_CBLT 528 1) m_XLBOCBBB_MASK m_ISA_V2 m_PPCVLE;
  mk_opcode "bnlctrl+" (m_XLOCB 19 m_BOFP4 m_CBLT 528 1) m_XLBOCBBB_MASK m_ISA_V2 m_PPCVLE;
  mk_opcode "blectr+" (m_XLOCB 19 m_BOFP4 m_CBGT 528 0) m_XLBOCBBB_MASK m_ISA_V2 m_PPCVLE;
  mk_opcode "bngctr+" (m_XLOCB 19 m_BOFP4 m_CBGT 528 0) m_XLBOCBBB_MASK m_ISA_V2 m_PPCVLE;
  mk_opcode "blectrl+" (m_XLOCB 19 m_BOFP4 m_CBGT 528 1) m_XLBOCBBB_MASK m_ISA_V2 m_PPCVLE;
  mk_opcode "bngctrl+" (m_XLOCB 19 m_BOFP4 m_CBGT 528 1) m_XLBOCBBB_MASK m_ISA_V2 m_PPCVLE;
  mk_opcode "bnectr+" (m_XLOCB 19 m_BOFP4 m_CBEQ 528 0) m_XLBOCBBB_MASK m_ISA_V2 m_PPCVLE;
  mk_opcode "bnectrl+" (m_XLOCB 19 m_BOFP4 m_CBEQ 528 1) m_XLBOCBBB_MASK m_ISA_V2 m_PPCVLE;
  mk_opcode "bnsctr+" (m_XLOCB 19 m_BOFP4 m_CBSO 528 0) m_XLBOCBBB_MASK m_ISA_V2 m_PPCVLE;
  mk_opcode "bnuctr+" (m_XLOCB 19 m_BOFP4 m_CBSO 528 0) m_XLBOCBBB_MASK m_ISA_V2 m_PPCVLE;
  mk_opcode "bnsctrl+" (m_XLOCB 19 m_BOFP4 m_CBSO 528 1) m_XLBOCBBB_MASK m_ISA_V2 m_PPCVLE;
  mk_opcode "bnuctrl+" (m_XLOCB 19 m_BOFP4 m_CBSO 528 1) m_XLBOCBBB_MASK m_ISA_V2 m_PPCVLE;
  mk_opcode "bltctr" (m_XLOCB 19 m_BOT m_CBLT 528 0) m_XLBOCBBB_MASK m_PPCCOM m_PPCVLE;
  mk_opcode "bltctr-" (m_XLOCB 19 m_BOT m_CBLT 528 0) m_XLBOCBBB_MASK m_PPCCOM (m_ISA_V2 .| m_PPCVLE);
  mk_opcode "bltctrl" (m_XLOCB 19 m_BOT m_CBLT 528 1) m_XLBOCBBB_MASK m_PPCCOM m_PPCVLE;
  mk_opcode "bltctrl-" (m_XLOCB 19 m_BOT m_CBLT 528 1) m_XLBOCBBB_MASK m_PPCCOM (m_ISA_V2 .| m_PPCVLE);
  mk_opcode "bgtctr" (m_XLOCB 19 m_BOT m_CBGT 528 0) m_XLBOCBBB_MASK m_PPCCOM m_PPCVLE;
  mk_opcode "bgtctr-" (m_XLOCB 19 m_BOT m_CBGT 528 0) m_XLBOCBBB_MASK m_PPCCOM (m_ISA_V2 .| m_PPCVLE);
  mk_opcode "bgtctrl" (m_XLOCB 19 m_BOT m_CBGT 528 1) m_XLBOCBBB_MASK m_PPCCOM m_PPCVLE;
  mk_opcode "bgtctrl-" (m_XLOCB 19 m_BOT m_CBGT 528 1) m_XLBOCBBB_MASK m_PPCCOM (m_ISA_V2 .| m_PPCVLE);
  mk_opcode "beqctr" (m_XLOCB 19 m_BOT m_CBEQ 528 0) m_XLBOCBBB_MASK m_PPCCOM m_PPCVLE;
  mk_opcode "beqctr-" (m_XLOCB 19 m_BOT m_CBEQ 528 0) m_XLBOCBBB_MASK m_PPCCOM (m_ISA_V2 .| m_PPCVLE);
  mk_opcode "beqctrl" (m_XLOCB 19 m_BOT m_CBEQ 528 1) m_XLBOCBBB_MASK m_PPCCOM m_PPCVLE;
  mk_opcode "beqctrl-" (m_XLOCB 19 m_BOT m_CBEQ 528 1) m_XLBOCBBB_MASK m_PPCCOM (m_ISA_V2 .| m_PPCVLE)].
(* qtlib/ppc-opc.c:5082-5192 *)
Definition opcodes_15 : list opcode := [
  mk_opcode "bsoctr" (m_XLOCB 19 m_BOT m_CBSO 528 0) m_XLBOCBBB_MASK m_PPCCOM m_PPCVLE;
  mk_opcode "bsoctr-" (m_XLOCB 19 m_BOT m_CBSO 528 0) m_XLBOCBBB_MASK m_PPCCOM (m_ISA_V2 .| m_PPCVLE);
  mk_opcode "bunctr" (m_XLOCB 19 m_BOT m_CBSO 528 0) m_XLBOCBBB_MASK m_PPCCOM m_PPCVLE;
  mk_opcode "bunctr-" (m_XLOCB 19 m_BOT m_CBSO 528 0) m_XLBOCBBB_MASK m_PPCCOM (m_ISA_V2 .| m_PPCVLE);
  mk_opcode "bsoctrl" (m_XLOCB 19 m_BOT m_CBSO 528 1) m_XLBOCBBB_MASK m_PPCCOM m_PPCVLE;
  mk_opcode "bsoctrl-" (m_XLOCB 19 m_BOT m_CBSO 528 1) m_XLBOCBBB_MASK m_PPCCOM (m_ISA_V2 .| m_PPCVLE);
  mk_opcode "bunctrl" (m_XLOCB 19 m_BOT m_CBSO 528 1) m_XLBOCBBB_MASK m_PPCCOM m_PPCVLE;
  mk_opcode "bunctrl-" (m_XLOCB 19 m_BOT m_CBSO 528 1) m_XLBOCBBB_MASK m_PPCCOM (m_ISA_V2 .| m_PPCVLE);
  mk_opcode "bltctr+" (m_XLOCB 19 m_BOTP m_CBLT 528 0) m_XLBOCBBB_MASK m_PPCCOM (m_ISA_V2 .| m_PPCVLE);
  mk_opcode "bltctrl+" (m_XLOCB 19 m_BOTP m_CBLT 528 1) m_XLBOCBBB_MASK m_PPCCOM (m_ISA_V2 .| m_PPCVLE);
  mk_opcode "bgtctr+" (m_XLOCB 19 m_BOTP m_CBGT 528 0) m_XLBOCBBB_MASK m_PPCCOM (m_ISA_V2 .| m_PPCVLE);
  mk_opcode "bgtctrl+" (m_XLOCB 19 m_BOTP m_CBGT 528 1) m_XLBOCBBB_MASK m_PPCCOM (m_ISA_V2 .| m_PPCVLE);
  mk_opcode "beqctr+" (m_XLOCB 19 m_BOTP m_CBEQ 528 0) m_XLBOCBBB_MASK m_PPCCOM (m_ISA_V2 .| m_PPCVLE);
  mk_opcode "beqctrl+" (m_XLOCB 19 m_BOTP m_CBEQ 528 1) m_XLBOCBBB_MASK m_PPCCOM (m_ISA_V2 .| m_PPCVLE);
  mk_opcode "bsoctr+" (m_XLOCB 19 m_BOTP m_CBSO 528 0) m_XLBOCBBB_MASK m_PPCCOM (m_ISA_V2 .| m_PPCVLE);
  mk_opcode "bunctr+" (m_XLOCB 19 m_BOTP m_CBSO 528 0) m_XLBOCBBB_MASK m_PPCCOM (m_ISA_V2 .| m_PPCVLE);
  mk_opcode "bsoctrl+" (m_XLOCB 19 m_BOTP m_CBSO 528 1) m_XLBOCBBB_MASK m_PPCCOM (m_ISA_V2 .| m_PPCVLE);
  mk_opcode "bunctrl+" (m_XLOCB 19 m_BOTP m_CBSO 528 1) m_XLBOCBBB_MASK m_PPCCOM (m_ISA_V2 .| m_PPCVLE);
  mk_opcode "bltctr-" (m_XLOCB 19 m_BOTM4 m_CBLT 528 0) m_XLBOCBBB_MASK m_ISA_V2 m_PPCVLE;
  mk_opcode "bltctrl-" (m_XLOCB 19 m_BOTM4 m_CBLT 528 1) m_XLBOCBBB_MASK m_ISA_V2 m_PPCVLE;
  mk_opcode "bgtctr-" (m_XLOCB 19 m_BOTM4 m_CBGT 528 0) m_XLBOCBBB_MASK m_ISA_V2 m_PPCVLE;
  mk_opcode "bgtctrl-" (m_XLOCB 19 m_BOTM4 m_CBGT 528 1) m_XLBOCBBB_MASK m_ISA_V2 m_PPCVLE;
  mk_opcode "beqctr-" (m_XLOCB 19 m_BOTM4 m_CBEQ 528 0) m_XLBOCBBB_MASK m_ISA_V2 m_PPCVLE;
  mk_opcode "beqctrl-" (m_XLOCB 19 m_BOTM4 m_CBEQ 528 1) m_XLBOCBBB_MASK m_ISA_V2 m_PPCVLE;
  mk_opcode "bsoctr-" (m_XLOCB 19 m_BOTM4 m_CBSO 528 0) m_XLBOCBBB_MASK m_ISA_V2 m_PPCVLE;
  mk_opcode "bunctr-" (m_XLOCB 19 m_BOTM4 m_CBSO 528 0) m_XLBOCBBB_MASK m_ISA_V2 m_PPCVLE;
  mk_opcode "bsoctrl-" (m_XLOCB 19 m_BOTM4 m_CBSO 528 1) m_XLBOCBBB_MASK m_ISA_V2 m_PPCVLE;
  mk_opcode "bunctrl-" (m_XLOCB 19 m_BOTM4 m_CBSO 528 1) m_XLBOCBBB_MASK m_ISA_V2 m_PPCVLE;
  mk_opcode "bltctr+" (m_XLOCB 19 m_BOTP4 m_CBLT 528 0) m_XLBOCBBB_MASK m_ISA_V2 m_PPCVLE;
  mk_opcode "bltctrl+" (m_XLOCB 19 m_BOTP4 m_CBLT 528 1) m_XLBOCBBB_MASK m_ISA_V2 m_PPCVLE;
  mk_opcode "bgtctr+" (m_XLOCB 19 m_BOTP4 m_CBGT 528 0) m_XLBOCBBB_MASK m_ISA_V2 m_PPCVLE;
  mk_opcode "bgtctrl+" (m_XLOCB 19 m_BOTP4 m_CBGT 528 1) m_XLBOCBBB_MASK m_ISA_V2 m_PPCVLE;
  mk_opcode "beqctr+" (m_XLOCB 19 m_BOTP4 m_CBEQ 528 0) m_XLBOCBBB_MASK m_ISA_V2 m_PPCVLE;
  mk_opcode "beqctrl+" (m_XLOCB 19 m_BOTP4 m_CBEQ 528 1) m_XLBOCBBB_MASK m_ISA_V2 m_PPCVLE;
  mk_opcode "bsoctr+" (m_XLOCB 19 m_BOTP4 m_CBSO 528 0) m_XLBOCBBB_MASK m_ISA_V2 m_PPCVLE;
  mk_opcode "bunctr+" (m_XLOCB 19 m_BOTP4 m_CBSO 528 0) m_XLBOCBBB_MASK m_ISA_V2 m_PPCVLE;
  mk_opcode "bsoctrl+" (m_XLOCB 19 m_BOTP4 m_CBSO 528 1) m_XLBOCBBB_MASK m_ISA_V2 m_PPCVLE;
  mk_opcode "bunctrl+" (m_XLOCB 19 m_BOTP4 m_CBSO 528 1) m_XLBOCBBB_MASK m_ISA_V2 m_PPCVLE;
  mk_opcode "bfctr" (m_XLO 19 m_BOF 528 0) m_XLBOBB_MASK m_PPCCOM m_PPCVLE;
  mk_opcode "bfctr-" (m_XLO 19 m_BOF 528 0) m_XLBOBB_MASK m_PPCCOM (m_ISA_V2 .| m_PPCVLE);
  mk_opcode "bfctrl" (m_XLO 19 m_BOF 528 1) m_XLBOBB_MASK m_PPCCOM m_PPCVLE;
  mk_opcode "bfctrl-" (m_XLO 19 m_BOF 528 1) m_XLBOBB_MASK m_PPCCOM (m_ISA_V2 .| m_PPCVLE);
  mk_opcode "bfctr+" (m_XLO 19 m_BOFP 528 0) m_XLBOBB_MASK m_PPCCOM (m_ISA_V2 .| m_PPCVLE);
  mk_opcode "bfctrl+" (m_XLO 19 m_BOFP 528 1) m_XLBOBB_MASK m_PPCCOM (m_ISA_V2 .| m_PPCVLE);
  mk_opcode "bfctr-" (m_XLO 19 m_BOFM4 528 0) m_XLBOBB_MASK m_ISA_V2 m_PPCVLE;
  mk_opcode "bfctrl-" (m_XLO 19 m_BOFM4 528 1) m_XLBOBB_MASK m_ISA_V2 m_PPCVLE;
  mk_opcode "bfctr+" (m_XLO 19 m_BOFP4 528 0) m_XLBOBB_MASK m_ISA_V2 m_PPCVLE;
  mk_opcode "bfctrl+" (m_XLO 19 m_BOFP4 528 1) m_XLBOBB_MASK m_ISA_V2 m_PPCVLE;
  mk_opcode "btctr" (m_XLO 19 m_BOT 528 0) m_XLBOBB_MASK m_PPCCOM m_PPCVLE;
  mk_opcode "btctr-" (m_XLO 19 m_BOT 528 0) m_XLBOBB_MASK m_PPCCOM (m_ISA_V2 .| m_PPCVLE);
  mk_opcode "btctrl" (m_XLO 19 m_BOT 528 1) m_XLBOBB_MASK m_PPCCOM m_PPCVLE;
  mk_opcode "btctrl-" (m_XLO 19 m_BOT 528 1) m_XLBOBB_MASK m_PPCCOM (m_ISA_V2 .| m_PPCVLE);
  mk_opcode "btctr+" (m_XLO 19 m_BOTP 528 0) m_XLBOBB_MASK m_PPCCOM (m_ISA_V2 .| m_PPCVLE);
  mk_opcode "btctrl+" (m_XLO 19 m_BOTP 528 1) m_XLBOBB_MASK m_PPCCOM (m_ISA_V2 .| m_PPCVLE);
  mk_opcode "btctr-" (m_XLO 19 m_BOTM4 528 0) m_XLBOBB_MASK m_ISA_V2 m_PPCVLE;
  mk_opcode "btctrl-" (m_XLO 19 m_BOTM4 528 1) m_XLBOBB_MASK m_ISA_V2 m_PPCVLE;
  mk_opcode "btctr+" (m_XLO 19 m_BOTP4 528 0) m_XLBOBB_MASK m_ISA_V2 m_PPCVLE;
  mk_opcode "btctrl+" (m_XLO 19 m_BOTP4 528 1) m_XLBOBB_MASK m_ISA_V2 m_PPCVLE;
  mk_opcode "bcctr-" (m_XLYLK 19 528 0 0) m_XLYBB_MASK m_PPCCOM m_PPCVLE;
  mk_opcode "bcctrl-" (m_XLYLK 19 528 0 1) m_XLYBB_MASK m_PPCCOM m_PPCVLE;
  mk_opcode "bcctr+" (m_XLYLK 19 528 1 0) m_XLYBB_MASK m_PPCCOM m_PPCVLE;
  mk_opcode "bcctrl+" (m_XLYLK 19 528 1 1) m_XLYBB_MASK m_PPCCOM m_PPCVLE;
  mk_opcode "bcctr" (m_XLLK 19 528 0) m_XLBH_MASK m_PPCCOM m_PPCVLE;
  mk_opcode "bcc" (m_XLLK 19 528 0) m_XLBB_MASK m_PWRCOM m_PPCVLE;
  mk_opcode "bcctrl" (m_XLLK 19 528 1) m_XLBH_MASK m_PPCCOM m_PPCVLE;
  mk_opcode "bccl" (m_XLLK 19 528 1) m_XLBB_MASK m_PWRCOM m_PPCVLE;
  mk_opcode "bctar-" (m_XLYLK 19 560 0 0) m_XLYBB_MASK m_POWER8 m_PPCVLE;
  mk_opcode "bctarl-" (m_XLYLK 19 560 0 1) m_XLYBB_MASK m_POWER8 m_PPCVLE;
  mk_opcode "bctar+" (m_XLYLK 19 560 1 0) m_XLYBB_MASK m_POWER8 m_PPCVLE;
  mk_opcode "bctarl+" (m_XLYLK 19 560 1 1) m_XLYBB_MASK m_POWER8 m_PPCVLE;
  mk_opcode "bctar" (m_XLLK 19 560 0) m_XLBH_MASK m_POWER8 m_PPCVLE;
  mk_opcode "bctarl" (m_XLLK 19 560 1) m_XLBH_MASK m_POWER8 m_PPCVLE;
  mk_opcode "rlwimi" (m_M 20 0) m_M_MASK m_PPCCOM m_PPCVLE;
  mk_opcode "rlimi" (m_M 20 0) m_M_MASK m_PWRCOM m_PPCVLE;
  mk_opcode "rlwimi." (m_M 20 1) m_M_MASK m_PPCCOM m_PPCVLE;
  mk_opcode "rlimi." (m_M 20 1) m_M_MASK m_PWRCOM m_PPCVLE;
  mk_opcode "rotlwi" (m_MME 21 31 0) m_MMBME_MASK m_PPCCOM m_PPCVLE;
  mk_opcode "clrlwi" (m_MME 21 31 0) m_MSHME_MASK m_PPCCOM m_PPCVLE;
  mk_opcode "rlwinm" (m_M 21 0) m_M_MASK m_PPCCOM m_PPCVLE;
  mk_opcode "rlinm" (m_M 21 0) m_M_MASK m_PWRCOM m_PPCVLE;
  mk_opcode "rotlwi." (m_MME 21 31 1) m_MMBME_MASK m_PPCCOM m_PPCVLE;
  mk_opcode "clrlwi." (m_MME 21 31 1) m_MSHME_MASK m_PPCCOM m_PPCVLE;
  mk_opcode "rlwinm." (m_M 21 1) m_M_MASK m_PPCCOM m_PPCVLE;
  mk_opcode "rlinm." (m_M 21 1) m_M_MASK m_PWRCOM m_PPCVLE;
  mk_opcode "rlmi" (m_M 22 0) m_M_MASK m_M601 m_PPCVLE;
  mk_opcode "rlmi." (m_M 22 1) m_M_MASK m_M601 m_PPCVLE;
  mk_opcode "rotlw" (m_MME 23 31 0) m_MMBME_MASK m_PPCCOM m_PPCVLE;
  mk_opcode "rlwnm" (m_M 23 0) m_M_MASK m_PPCCOM m_PPCVLE;
  mk_opcode "rlnm" (m_M 23 0) m_M_MASK m_PWRCOM m_PPCVLE;
  mk_opcode "rotlw." (m_MME 23 31 1) m_MMBME_MASK m_PPCCOM m_PPCVLE;
  mk_opcode "rlwnm." (m_M 23 1) m_M_MASK m_PPCCOM m_PPCVLE;
  mk_opcode "rlnm." (m_M 23 1) m_M_MASK m_PWRCOM m_PPCVLE;
  mk_opcode "nop" (m_OP 24) 0xffffffff m_PPCCOM m_PPCVLE;
  mk_opcode "ori" (m_OP 24) m_OP_MASK m_PPCCOM m_PPCVLE;
  mk_opcode "oril" (m_OP 24) m_OP_MASK m_PWRCOM m_PPCVLE;
  mk_opcode "oris" (m_OP 25) m_OP_MASK m_PPCCOM m_PPCVLE;
  mk_opcode "oriu" (m_OP 25) m_OP_MASK m_PWRCOM m_PPCVLE;
  mk_opcode "xnop" (m_OP 26) 0xffffffff m_PPCCOM m_PPCVLE;
  mk_opcode "xori" (m_OP 26) m_OP_MASK m_PPCCOM m_PPCVLE;
  mk_opcode "xoril" (m_OP 26) m_OP_MASK m_PWRCOM m_PPCVLE].
(* qtlib/ppc-opc.c:5194-5319 *)
Definition opcodes_16 : list opcode := [
  mk_opcode "xoris" (m_OP 27) m_OP_MASK m_PPCCOM m_PPCVLE;
  mk_opcode "xoriu" (m_OP 27) m_OP_MASK m_PWRCOM m_PPCVLE;
  mk_opcode "andi." (m_OP 28) m_OP_MASK m_PPCCOM m_PPCVLE;
  mk_opcode "andil." (m_OP 28) m_OP_MASK m_PWRCOM m_PPCVLE;
  mk_opcode "andis." (m_OP 29) m_OP_MASK m_PPCCOM m_PPCVLE;
  mk_opcode "andiu." (m_OP 29) m_OP_MASK m_PWRCOM m_PPCVLE;
  mk_opcode "rotldi" (m_MD 30 0 0) m_MDMB_MASK m_PPC64 m_PPCVLE;
  mk_opcode "clrldi" (m_MD 30 0 0) m_MDSH_MASK m_PPC64 m_PPCVLE;
  mk_opcode "rldicl" (m_MD 30 0 0) m_MD_MASK m_PPC64 m_PPCVLE;
  mk_opcode "rotldi." (m_MD 30 0 1) m_MDMB_MASK m_PPC64 m_PPCVLE;
  mk_opcode "clrldi." (m_MD 30 0 1) m_MDSH_MASK m_PPC64 m_PPCVLE;
  mk_opcode "rldicl." (m_MD 30 0 1) m_MD_MASK m_PPC64 m_PPCVLE;
  mk_opcode "rldicr" (m_MD 30 1 0) m_MD_MASK m_PPC64 m_PPCVLE;
  mk_opcode "rldicr." (m_MD 30 1 1) m_MD_MASK m_PPC64 m_PPCVLE;
  mk_opcode "rldic" (m_MD 30 2 0) m_MD_MASK m_PPC64 m_PPCVLE;
  mk_opcode "rldic." (m_MD 30 2 1) m_MD_MASK m_PPC64 m_PPCVLE;
  mk_opcode "rldimi" (m_MD 30 3 0) m_MD_MASK m_PPC64 m_PPCVLE;
  mk_opcode "rldimi." (m_MD 30 3 1) m_MD_MASK m_PPC64 m_PPCVLE;
  mk_opcode "rotld" (m_MDS 30 8 0) m_MDSMB_MASK m_PPC64 m_PPCVLE;
  mk_opcode "rldcl" (m_MDS 30 8 0) m_MDS_MASK m_PPC64 m_PPCVLE;
  mk_opcode "rotld." (m_MDS 30 8 1) m_MDSMB_MASK m_PPC64 m_PPCVLE;
  mk_opcode "rldcl." (m_MDS 30 8 1) m_MDS_MASK m_PPC64 m_PPCVLE;
  mk_opcode "rldcr" (m_MDS 30 9 0) m_MDS_MASK m_PPC64 m_PPCVLE;
  mk_opcode "rldcr." (m_MDS 30 9 1) m_MDS_MASK m_PPC64 m_PPCVLE;
  mk_opcode "cmpw" (m_XOPL 31 0 0) m_XCMPL_MASK m_PPCCOM 0;
  mk_opcode "cmpd" (m_XOPL 31 0 1) m_XCMPL_MASK m_PPC64 0;
  mk_opcode "cmp" (m_X 31 0) m_XCMP_MASK m_PPC 0;
  mk_opcode "cmp" (m_X 31 0) m_XCMPL_MASK m_PWRCOM m_PPC;
  mk_opcode "twlgt" (m_XTO 31 4 m_TOLGT) m_XTO_MASK m_PPCCOM 0;
  mk_opcode "tlgt" (m_XTO 31 4 m_TOLGT) m_XTO_MASK m_PWRCOM 0;
  mk_opcode "twllt" (m_XTO 31 4 m_TOLLT) m_XTO_MASK m_PPCCOM 0;
  mk_opcode "tllt" (m_XTO 31 4 m_TOLLT) m_XTO_MASK m_PWRCOM 0;
  mk_opcode "tweq" (m_XTO 31 4 m_TOEQ) m_XTO_MASK m_PPCCOM 0;
  mk_opcode "teq" (m_XTO 31 4 m_TOEQ) m_XTO_MASK m_PWRCOM 0;
  mk_opcode "twlge" (m_XTO 31 4 m_TOLGE) m_XTO_MASK m_PPCCOM 0;
  mk_opcode "tlge" (m_XTO 31 4 m_TOLGE) m_XTO_MASK m_PWRCOM 0;
  mk_opcode "twlnl" (m_XTO 31 4 m_TOLNL) m_XTO_MASK m_PPCCOM 0;
  mk_opcode "tlnl" (m_XTO 31 4 m_TOLNL) m_XTO_MASK m_PWRCOM 0;
  mk_opcode "twlle" (m_XTO 31 4 m_TOLLE) m_XTO_MASK m_PPCCOM 0;
  mk_opcode "tlle" (m_XTO 31 4 m_TOLLE) m_XTO_MASK m_PWRCOM 0;
  mk_opcode "twlng" (m_XTO 31 4 m_TOLNG) m_XTO_MASK m_PPCCOM 0;
  mk_opcode "tlng" (m_XTO 31 4 m_TOLNG) m_XTO_MASK m_PWRCOM 0;
  mk_opcode "twgt" (m_XTO 31 4 m_TOGT) m_XTO_MASK m_PPCCOM 0;
  mk_opcode "tgt" (m_XTO 31 4 m_TOGT) m_XTO_MASK m_PWRCOM 0;
  mk_opcode "twge" (m_XTO 31 4 m_TOGE) m_XTO_MASK m_PPCCOM 0;
  mk_opcode "tge" (m_XTO 31 4 m_TOGE) m_XTO_MASK m_PWRCOM 0;
  mk_opcode "twnl" (m_XTO 31 4 m_TONL) m_XTO_MASK m_PPCCOM 0;
  mk_opcode "tnl" (m_XTO 31 4 m_TONL) m_XTO_MASK m_PWRCOM 0;
  mk_opcode "twlt" (m_XTO 31 4 m_TOLT) m_XTO_MASK m_PPCCOM 0;
  mk_opcode "tlt" (m_XTO 31 4 m_TOLT) m_XTO_MASK m_PWRCOM 0;
  mk_opcode "twle" (m_XTO 31 4 m_TOLE) m_XTO_MASK m_PPCCOM 0;
  mk_opcode "tle" (m_XTO 31 4 m_TOLE) m_XTO_MASK m_PWRCOM 0;
  mk_opcode "twng" (m_XTO 31 4 m_TONG) m_XTO_MASK m_PPCCOM 0;
  mk_opcode "tng" (m_XTO 31 4 m_TONG) m_XTO_MASK m_PWRCOM 0;
  mk_opcode "twne" (m_XTO 31 4 m_TONE) m_XTO_MASK m_PPCCOM 0;
  mk_opcode "tne" (m_XTO 31 4 m_TONE) m_XTO_MASK m_PWRCOM 0;
  mk_opcode "trap" (m_XTO 31 4 m_TOU) 0xffffffff m_PPCCOM 0;
  mk_opcode "twu" (m_XTO 31 4 m_TOU) m_XTO_MASK m_PPCCOM 0;
  mk_opcode "tu" (m_XTO 31 4 m_TOU) m_XTO_MASK m_PWRCOM 0;
  mk_opcode "tw" (m_X 31 4) m_X_MASK m_PPCCOM 0;
  mk_opcode "t" (m_X 31 4) m_X_MASK m_PWRCOM 0;
  mk_opcode "lvsl" (m_X 31 6) m_X_MASK m_PPCVEC 0;
  mk_opcode "lvebx" (m_X 31 7) m_X_MASK m_PPCVEC 0;
  mk_opcode "lbfcmx" (m_APU 31 7 0) m_APU_MASK m_PPC405 0;
  mk_opcode "subfc" (m_XO 31 8 0 0) m_XO_MASK m_PPCCOM 0;
  mk_opcode "sf" (m_XO 31 8 0 0) m_XO_MASK m_PWRCOM 0;
  mk_opcode "subc" (m_XO 31 8 0 0) m_XO_MASK m_PPCCOM 0;
  mk_opcode "subfc." (m_XO 31 8 0 1) m_XO_MASK m_PPCCOM 0;
  mk_opcode "sf." (m_XO 31 8 0 1) m_XO_MASK m_PWRCOM 0;
  mk_opcode "subc." (m_XO 31 8 0 1) m_XO_MASK m_PPCCOM 0;
  mk_opcode "mulhdu" (m_XO 31 9 0 0) m_XO_MASK m_PPC64 0;
  mk_opcode "mulhdu." (m_XO 31 9 0 1) m_XO_MASK m_PPC64 0;
  mk_opcode "addc" (m_XO 31 10 0 0) m_XO_MASK m_PPCCOM 0;
  mk_opcode "a" (m_XO 31 10 0 0) m_XO_MASK m_PWRCOM 0;
  mk_opcode "addc." (m_XO 31 10 0 1) m_XO_MASK m_PPCCOM 0;
  mk_opcode "a." (m_XO 31 10 0 1) m_XO_MASK m_PWRCOM 0;
  mk_opcode "mulhwu" (m_XO 31 11 0 0) m_XO_MASK m_PPC 0;
  mk_opcode "mulhwu." (m_XO 31 11 0 1) m_XO_MASK m_PPC 0;
  mk_opcode "lxsiwzx" (m_X 31 12) m_XX1_MASK m_PPCVSX2 0;
  mk_opcode "isellt" (m_X 31 15) m_X_MASK m_PPCISEL 0;
  mk_opcode "tlbilxlpid" (m_XTO 31 18 0) m_XTO_MASK (m_E500MC .| m_PPCA2) 0;
  mk_opcode "tlbilxpid" (m_XTO 31 18 1) m_XTO_MASK (m_E500MC .| m_PPCA2) 0;
  mk_opcode "tlbilxva" (m_XTO 31 18 3) m_XTO_MASK (m_E500MC .| m_PPCA2) 0;
  mk_opcode "tlbilx" (m_X 31 18) m_X_MASK (m_E500MC .| m_PPCA2) 0;
  mk_opcode "mfcr" (m_XFXM 31 19 0 0) m_XFXFXM_MASK m_COM 0;
  mk_opcode "mfocrf" (m_XFXM 31 19 0 1) m_XFXFXM_MASK m_COM 0;
  mk_opcode "lwarx" (m_X 31 20) m_XEH_MASK m_PPC 0;
  mk_opcode "ldx" (m_X 31 21) m_X_MASK m_PPC64 0;
  mk_opcode "icbt" (m_X 31 22) m_X_MASK (((m_BOOKE .| m_PPCE300) .| m_PPCA2) .| m_PPC476) 0;
  mk_opcode "lwzx" (m_X 31 23) m_X_MASK m_PPCCOM 0;
  mk_opcode "lx" (m_X 31 23) m_X_MASK m_PWRCOM 0;
  mk_opcode "slw" (m_XRC 31 24 0) m_X_MASK m_PPCCOM 0;
  mk_opcode "sl" (m_XRC 31 24 0) m_X_MASK m_PWRCOM 0;
  mk_opcode "slw." (m_XRC 31 24 1) m_X_MASK m_PPCCOM 0;
  mk_opcode "sl." (m_XRC 31 24 1) m_X_MASK m_PWRCOM 0;
  mk_opcode "cntlzw" (m_XRC 31 26 0) m_XRB_MASK m_PPCCOM 0;
  mk_opcode "cntlz" (m_XRC 31 26 0) m_XRB_MASK m_PWRCOM 0;
  mk_opcode "cntlzw." (m_XRC 31 26 1) m_XRB_MASK m_PPCCOM 0;
  mk_opcode "cntlz." (m_XRC 31 26 1) m_XRB_MASK m_PWRCOM 0;
  mk_opcode "sld" (m_XRC 31 27 0) m_X_MASK m_PPC64 0].
(* qtlib/ppc-opc.c:5320-5470 *)
Definition opcodes_17 : list opcode := [
  mk_opcode "sld." (m_XRC 31 27 1) m_X_MASK m_PPC64 0;
  mk_opcode "and" (m_XRC 31 28 0) m_X_MASK m_COM 0;
  mk_opcode "and." (m_XRC 31 28 1) m_X_MASK m_COM 0;
  mk_opcode "maskg" (m_XRC 31 29 0) m_X_MASK m_M601 m_PPCA2;
  mk_opcode "maskg." (m_XRC 31 29 1) m_X_MASK m_M601 m_PPCA2;
  mk_opcode "ldepx" (m_X 31 29) m_X_MASK (m_E500MC .| m_PPCA2) 0;
  mk_opcode "waitasec" (m_X 31 30) m_XRTRARB_MASK m_POWER8 m_POWER9;
  mk_opcode "wait" (m_X 31 30) m_XWC_MASK m_POWER9 0;
  mk_opcode "lwepx" (m_X 31 31) m_X_MASK (m_E500MC .| m_PPCA2) 0;
  mk_opcode "cmplw" (m_XOPL 31 32 0) m_XCMPL_MASK m_PPCCOM 0;
  mk_opcode "cmpld" (m_XOPL 31 32 1) m_XCMPL_MASK m_PPC64 0;
  mk_opcode "cmpl" (m_X 31 32) m_XCMP_MASK m_PPC 0;
  mk_opcode "cmpl" (m_X 31 32) m_XCMPL_MASK m_PWRCOM m_PPC;
  mk_opcode "lvsr" (m_X 31 38) m_X_MASK m_PPCVEC 0;
  mk_opcode "lvehx" (m_X 31 39) m_X_MASK m_PPCVEC 0;
  mk_opcode "lhfcmx" (m_APU 31 39 0) m_APU_MASK m_PPC405 0;
  mk_opcode "mviwsplt" (m_X 31 46) m_X_MASK m_E6500 0;
  mk_opcode "iselgt" (m_X 31 47) m_X_MASK m_PPCISEL 0;
  mk_opcode "lvewx" (m_X 31 71) m_X_MASK m_PPCVEC 0;
  mk_opcode "addg6s" (m_XO 31 74 0 0) m_XO_MASK m_POWER6 0;
  mk_opcode "lxsiwax" (m_X 31 76) m_XX1_MASK m_PPCVSX2 0;
  mk_opcode "iseleq" (m_X 31 79) m_X_MASK m_PPCISEL 0;
  mk_opcode "isel" (m_XISEL 31 15) m_XISEL_MASK (m_PPCISEL .| m_TITAN) 0;
  mk_opcode "subf" (m_XO 31 40 0 0) m_XO_MASK m_PPC 0;
  mk_opcode "sub" (m_XO 31 40 0 0) m_XO_MASK m_PPC 0;
  mk_opcode "subf." (m_XO 31 40 0 1) m_XO_MASK m_PPC 0;
  mk_opcode "sub." (m_XO 31 40 0 1) m_XO_MASK m_PPC 0;
  mk_opcode "mfvsrd" (m_X 31 51) m_XX1RB_MASK m_PPCVSX2 0;
  mk_opcode "mffprd" (m_X 31 51) (m_XX1RB_MASK .| 1) m_PPCVSX2 0;
  mk_opcode "mfvrd" ((m_X 31 51) .| 1) (m_XX1RB_MASK .| 1) m_PPCVSX2 0;
  mk_opcode "eratilx" (m_X 31 51) m_X_MASK m_PPCA2 0;
  mk_opcode "lbarx" (m_X 31 52) m_XEH_MASK (m_POWER8 .| m_E6500) 0;
  mk_opcode "ldux" (m_X 31 53) m_X_MASK m_PPC64 0;
  mk_opcode "dcbst" (m_X 31 54) m_XRT_MASK m_PPC 0;
  mk_opcode "lwzux" (m_X 31 55) m_X_MASK m_PPCCOM 0;
  mk_opcode "lux" (m_X 31 55) m_X_MASK m_PWRCOM 0;
  mk_opcode "cntlzd" (m_XRC 31 58 0) m_XRB_MASK m_PPC64 0;
  mk_opcode "cntlzd." (m_XRC 31 58 1) m_XRB_MASK m_PPC64 0;
  mk_opcode "andc" (m_XRC 31 60 0) m_X_MASK m_COM 0;
  mk_opcode "andc." (m_XRC 31 60 1) m_X_MASK m_COM 0;
  mk_opcode "waitrsv" ((m_X 31 62) .| (1 .<< 21)) 0xffffffff (m_E500MC .| m_PPCA2) 0;
  mk_opcode "waitimpl" ((m_X 31 62) .| (2 .<< 21)) 0xffffffff (m_E500MC .| m_PPCA2) 0;
  mk_opcode "wait" (m_X 31 62) m_XWC_MASK (m_E500MC .| m_PPCA2) 0;
  mk_opcode "dcbstep" (m_XRT 31 63 0) m_XRT_MASK (m_E500MC .| m_PPCA2) 0;
  mk_opcode "tdlgt" (m_XTO 31 68 m_TOLGT) m_XTO_MASK m_PPC64 0;
  mk_opcode "tdllt" (m_XTO 31 68 m_TOLLT) m_XTO_MASK m_PPC64 0;
  mk_opcode "tdeq" (m_XTO 31 68 m_TOEQ) m_XTO_MASK m_PPC64 0;
  mk_opcode "tdlge" (m_XTO 31 68 m_TOLGE) m_XTO_MASK m_PPC64 0;
  mk_opcode "tdlnl" (m_XTO 31 68 m_TOLNL) m_XTO_MASK m_PPC64 0;
  mk_opcode "tdlle" (m_XTO 31 68 m_TOLLE) m_XTO_MASK m_PPC64 0;
  mk_opcode "tdlng" (m_XTO 31 68 m_TOLNG) m_XTO_MASK m_PPC64 0;
  mk_opcode "tdgt" (m_XTO 31 68 m_TOGT) m_XTO_MASK m_PPC64 0;
  mk_opcode "tdge" (m_XTO 31 68 m_TOGE) m_XTO_MASK m_PPC64 0;
  mk_opcode "tdnl" (m_XTO 31 68 m_TONL) m_XTO_MASK m_PPC64 0;
  mk_opcode "tdlt" (m_XTO 31 68 m_TOLT) m_XTO_MASK m_PPC64 0;
  mk_opcode "tdle" (m_XTO 31 68 m_TOLE) m_XTO_MASK m_PPC64 0;
  mk_opcode "tdng" (m_XTO 31 68 m_TONG) m_XTO_MASK m_PPC64 0;
  mk_opcode "tdne" (m_XTO 31 68 m_TONE) m_XTO_MASK m_PPC64 0;
  mk_opcode "tdu" (m_XTO 31 68 m_TOU) m_XTO_MASK m_PPC64 0;
  mk_opcode "td" (m_X 31 68) m_X_MASK m_PPC64 0;
  mk_opcode "lwfcmx" (m_APU 31 71 0) m_APU_MASK m_PPC405 0;
  mk_opcode "mulhd" (m_XO 31 73 0 0) m_XO_MASK m_PPC64 0;
  mk_opcode "mulhd." (m_XO 31 73 0 1) m_XO_MASK m_PPC64 0;
  mk_opcode "mulhw" (m_XO 31 75 0 0) m_XO_MASK m_PPC 0;
  mk_opcode "mulhw." (m_XO 31 75 0 1) m_XO_MASK m_PPC 0;
  mk_opcode "dlmzb" (m_XRC 31 78 0) m_X_MASK (((m_PPC403 .| m_PPC440) .| m_PPC476) .| m_TITAN) 0;
  mk_opcode "dlmzb." (m_XRC 31 78 1) m_X_MASK (((m_PPC403 .| m_PPC440) .| m_PPC476) .| m_TITAN) 0;
  mk_opcode "mtsrd" (m_X 31 82) (m_XRB_MASK .| (1 .<< 20)) m_PPC64 0;
  mk_opcode "mfmsr" (m_X 31 83) m_XRARB_MASK m_COM 0;
  mk_opcode "ldarx" (m_X 31 84) m_XEH_MASK m_PPC64 0;
  mk_opcode "dcbfl" (m_XOPL 31 86 1) m_XRT_MASK m_POWER5 m_PPC476;
  mk_opcode "dcbf" (m_X 31 86) m_XLRT_MASK m_PPC 0;
  mk_opcode "lbzx" (m_X 31 87) m_X_MASK m_COM 0;
  mk_opcode "lbepx" (m_X 31 95) m_X_MASK (m_E500MC .| m_PPCA2) 0;
  mk_opcode "dni" (m_XRC 31 97 1) m_XRB_MASK m_E6500 0;
  mk_opcode "lvx" (m_X 31 103) m_X_MASK m_PPCVEC 0;
  mk_opcode "lqfcmx" (m_APU 31 103 0) m_APU_MASK m_PPC405 0;
  mk_opcode "neg" (m_XO 31 104 0 0) m_XORB_MASK m_COM 0;
  mk_opcode "neg." (m_XO 31 104 0 1) m_XORB_MASK m_COM 0;
  mk_opcode "mul" (m_XO 31 107 0 0) m_XO_MASK m_M601 0;
  mk_opcode "mul." (m_XO 31 107 0 1) m_XO_MASK m_M601 0;
  mk_opcode "mvidsplt" (m_X 31 110) m_X_MASK m_E6500 0;
  mk_opcode "mtsrdin" (m_X 31 114) m_XRA_MASK m_PPC64 0;
  mk_opcode "mffprwz" (m_X 31 115) (m_XX1RB_MASK .| 1) m_PPCVSX2 0;
  mk_opcode "mfvrwz" ((m_X 31 115) .| 1) (m_XX1RB_MASK .| 1) m_PPCVSX2 0;
  mk_opcode "mfvsrwz" (m_X 31 115) m_XX1RB_MASK m_PPCVSX2 0;
  mk_opcode "lharx" (m_X 31 116) m_XEH_MASK (m_POWER8 .| m_E6500) 0;
  mk_opcode "clf" (m_X 31 118) m_XTO_MASK m_POWER 0;
  mk_opcode "lbzux" (m_X 31 119) m_X_MASK m_COM 0;
  mk_opcode "popcntb" (m_X 31 122) m_XRB_MASK m_POWER5 0;
  mk_opcode "not" (m_XRC 31 124 0) m_X_MASK m_COM 0;
  mk_opcode "nor" (m_XRC 31 124 0) m_X_MASK m_COM 0;
  mk_opcode "not." (m_XRC 31 124 1) m_X_MASK m_COM 0;
  mk_opcode "nor." (m_XRC 31 124 1) m_X_MASK m_COM 0;
  mk_opcode "dcbfep" (m_XRT 31 127 0) m_XRT_MASK (m_E500MC .| m_PPCA2) 0;
  mk_opcode "setb" (m_X 31 128) (m_XRB_MASK .| (3 .<< 16)) m_POWER9 0;
  mk_opcode "wrtee" (m_X 31 131) m_XRARB_MASK (((m_PPC403 .| m_BOOKE) .| m_PPCA2) .| m_PPC476) 0;
  mk_opcode "dcbtstls" (m_X 31 134) m_X_MASK ((m_PPCCHLK .| m_PPC476) .| m_TITAN) 0;
  mk_opcode "stvebx" (m_X 31 135) m_X_MASK m_PPCVEC 0;
  mk_opcode "stbfcmx" (m_APU 31 135 0) m_APU_MASK m_PPC405 0].
(* qtlib/ppc-opc.c:5472-5621 *)
Definition opcodes_18 : list opcode := [
  mk_opcode "subfe" (m_XO 31 136 0 0) m_XO_MASK m_PPCCOM 0;
  mk_opcode "sfe" (m_XO 31 136 0 0) m_XO_MASK m_PWRCOM 0;
  mk_opcode "subfe." (m_XO 31 136 0 1) m_XO_MASK m_PPCCOM 0;
  mk_opcode "sfe." (m_XO 31 136 0 1) m_XO_MASK m_PWRCOM 0;
  mk_opcode "adde" (m_XO 31 138 0 0) m_XO_MASK m_PPCCOM 0;
  mk_opcode "ae" (m_XO 31 138 0 0) m_XO_MASK m_PWRCOM 0;
  mk_opcode "adde." (m_XO 31 138 0 1) m_XO_MASK m_PPCCOM 0;
  mk_opcode "ae." (m_XO 31 138 0 1) m_XO_MASK m_PWRCOM 0;
  mk_opcode "stxsiwx" (m_X 31 140) m_XX1_MASK m_PPCVSX2 0;
  mk_opcode "msgsndp" (m_XRTRA 31 142 0 0) m_XRTRA_MASK m_POWER8 0;
  mk_opcode "dcbtstlse" (m_X 31 142) m_X_MASK m_PPCCHLK m_E500MC;
  mk_opcode "mtcr" (m_XFXM 31 144 0xff 0) m_XRARB_MASK m_COM 0;
  mk_opcode "mtcrf" (m_XFXM 31 144 0 0) m_XFXFXM_MASK m_COM 0;
  mk_opcode "mtocrf" (m_XFXM 31 144 0 1) m_XFXFXM_MASK m_COM 0;
  mk_opcode "mtmsr" (m_X 31 146) m_XRLARB_MASK m_COM 0;
  mk_opcode "mtsle" (m_X 31 147) m_XRTLRARB_MASK m_POWER8 0;
  mk_opcode "eratsx" (m_XRC 31 147 0) m_X_MASK m_PPCA2 0;
  mk_opcode "eratsx." (m_XRC 31 147 1) m_X_MASK m_PPCA2 0;
  mk_opcode "stdx" (m_X 31 149) m_X_MASK m_PPC64 0;
  mk_opcode "stwcx." (m_XRC 31 150 1) m_X_MASK m_PPC 0;
  mk_opcode "stwx" (m_X 31 151) m_X_MASK m_PPCCOM 0;
  mk_opcode "stx" (m_X 31 151) m_X_MASK m_PWRCOM 0;
  mk_opcode "slq" (m_XRC 31 152 0) m_X_MASK m_M601 0;
  mk_opcode "slq." (m_XRC 31 152 1) m_X_MASK m_M601 0;
  mk_opcode "sle" (m_XRC 31 153 0) m_X_MASK m_M601 0;
  mk_opcode "sle." (m_XRC 31 153 1) m_X_MASK m_M601 0;
  mk_opcode "prtyw" (m_X 31 154) m_XRB_MASK ((m_POWER6 .| m_PPCA2) .| m_PPC476) 0;
  mk_opcode "stdepx" (m_X 31 157) m_X_MASK (m_E500MC .| m_PPCA2) 0;
  mk_opcode "stwepx" (m_X 31 159) m_X_MASK (m_E500MC .| m_PPCA2) 0;
  mk_opcode "wrteei" (m_X 31 163) m_XE_MASK (((m_PPC403 .| m_BOOKE) .| m_PPCA2) .| m_PPC476) 0;
  mk_opcode "dcbtls" (m_X 31 166) m_X_MASK ((m_PPCCHLK .| m_PPC476) .| m_TITAN) 0;
  mk_opcode "stvehx" (m_X 31 167) m_X_MASK m_PPCVEC 0;
  mk_opcode "sthfcmx" (m_APU 31 167 0) m_APU_MASK m_PPC405 0;
  mk_opcode "addex" (m_ZRC 31 170 0) m_Z2_MASK m_POWER9 0;
  mk_opcode "msgclrp" (m_XRTRA 31 174 0 0) m_XRTRA_MASK m_POWER8 0;
  mk_opcode "dcbtlse" (m_X 31 174) m_X_MASK m_PPCCHLK m_E500MC;
  mk_opcode "mtmsrd" (m_X 31 178) m_XRLARB_MASK m_PPC64 0;
  mk_opcode "mtvsrd" (m_X 31 179) m_XX1RB_MASK m_PPCVSX2 0;
  mk_opcode "mtfprd" (m_X 31 179) (m_XX1RB_MASK .| 1) m_PPCVSX2 0;
  mk_opcode "mtvrd" ((m_X 31 179) .| 1) (m_XX1RB_MASK .| 1) m_PPCVSX2 0;
  mk_opcode "eratre" (m_X 31 179) m_X_MASK m_PPCA2 0;
  mk_opcode "stdux" (m_X 31 181) m_X_MASK m_PPC64 0;
  mk_opcode "stqcx." (m_XRC 31 182 1) (m_X_MASK .| m_Q_MASK) m_POWER8 0;
  mk_opcode "wchkall" (m_X 31 182) m_X_MASK m_PPCA2 0;
  mk_opcode "stwux" (m_X 31 183) m_X_MASK m_PPCCOM 0;
  mk_opcode "stux" (m_X 31 183) m_X_MASK m_PWRCOM 0;
  mk_opcode "sliq" (m_XRC 31 184 0) m_X_MASK m_M601 0;
  mk_opcode "sliq." (m_XRC 31 184 1) m_X_MASK m_M601 0;
  mk_opcode "prtyd" (m_X 31 186) m_XRB_MASK (m_POWER6 .| m_PPCA2) 0;
  mk_opcode "cmprb" (m_X 31 192) m_XCMP_MASK m_POWER9 0;
  mk_opcode "icblq." (m_XRC 31 198 1) m_X_MASK m_E6500 0;
  mk_opcode "stvewx" (m_X 31 199) m_X_MASK m_PPCVEC 0;
  mk_opcode "stwfcmx" (m_APU 31 199 0) m_APU_MASK m_PPC405 0;
  mk_opcode "subfze" (m_XO 31 200 0 0) m_XORB_MASK m_PPCCOM 0;
  mk_opcode "sfze" (m_XO 31 200 0 0) m_XORB_MASK m_PWRCOM 0;
  mk_opcode "subfze." (m_XO 31 200 0 1) m_XORB_MASK m_PPCCOM 0;
  mk_opcode "sfze." (m_XO 31 200 0 1) m_XORB_MASK m_PWRCOM 0;
  mk_opcode "addze" (m_XO 31 202 0 0) m_XORB_MASK m_PPCCOM 0;
  mk_opcode "aze" (m_XO 31 202 0 0) m_XORB_MASK m_PWRCOM 0;
  mk_opcode "addze." (m_XO 31 202 0 1) m_XORB_MASK m_PPCCOM 0;
  mk_opcode "aze." (m_XO 31 202 0 1) m_XORB_MASK m_PWRCOM 0;
  mk_opcode "msgsnd" (m_XRTRA 31 206 0 0) m_XRTRA_MASK ((m_E500MC .| m_PPCA2) .| m_POWER8) 0;
  mk_opcode "mtsr" (m_X 31 210) (m_XRB_MASK .| (1 .<< 20)) m_COM m_NON32;
  mk_opcode "mtfprwa" (m_X 31 211) (m_XX1RB_MASK .| 1) m_PPCVSX2 0;
  mk_opcode "mtvrwa" ((m_X 31 211) .| 1) (m_XX1RB_MASK .| 1) m_PPCVSX2 0;
  mk_opcode "mtvsrwa" (m_X 31 211) m_XX1RB_MASK m_PPCVSX2 0;
  mk_opcode "eratwe" (m_X 31 211) m_X_MASK m_PPCA2 0;
  mk_opcode "ldawx." (m_XRC 31 212 1) m_X_MASK m_PPCA2 0;
  mk_opcode "stdcx." (m_XRC 31 214 1) m_X_MASK m_PPC64 0;
  mk_opcode "stbx" (m_X 31 215) m_X_MASK m_COM 0;
  mk_opcode "sllq" (m_XRC 31 216 0) m_X_MASK m_M601 0;
  mk_opcode "sllq." (m_XRC 31 216 1) m_X_MASK m_M601 0;
  mk_opcode "sleq" (m_XRC 31 217 0) m_X_MASK m_M601 0;
  mk_opcode "sleq." (m_XRC 31 217 1) m_X_MASK m_M601 0;
  mk_opcode "stbepx" (m_X 31 223) m_X_MASK (m_E500MC .| m_PPCA2) 0;
  mk_opcode "cmpeqb" (m_X 31 224) m_XCMPL_MASK m_POWER9 0;
  mk_opcode "icblc" (m_X 31 230) m_X_MASK ((m_PPCCHLK .| m_PPC476) .| m_TITAN) 0;
  mk_opcode "stvx" (m_X 31 231) m_X_MASK m_PPCVEC 0;
  mk_opcode "stqfcmx" (m_APU 31 231 0) m_APU_MASK m_PPC405 0;
  mk_opcode "subfme" (m_XO 31 232 0 0) m_XORB_MASK m_PPCCOM 0;
  mk_opcode "sfme" (m_XO 31 232 0 0) m_XORB_MASK m_PWRCOM 0;
  mk_opcode "subfme." (m_XO 31 232 0 1) m_XORB_MASK m_PPCCOM 0;
  mk_opcode "sfme." (m_XO 31 232 0 1) m_XORB_MASK m_PWRCOM 0;
  mk_opcode "mulld" (m_XO 31 233 0 0) m_XO_MASK m_PPC64 0;
  mk_opcode "mulld." (m_XO 31 233 0 1) m_XO_MASK m_PPC64 0;
  mk_opcode "addme" (m_XO 31 234 0 0) m_XORB_MASK m_PPCCOM 0;
  mk_opcode "ame" (m_XO 31 234 0 0) m_XORB_MASK m_PWRCOM 0;
  mk_opcode "addme." (m_XO 31 234 0 1) m_XORB_MASK m_PPCCOM 0;
  mk_opcode "ame." (m_XO 31 234 0 1) m_XORB_MASK m_PWRCOM 0;
  mk_opcode "mullw" (m_XO 31 235 0 0) m_XO_MASK m_PPCCOM 0;
  mk_opcode "muls" (m_XO 31 235 0 0) m_XO_MASK m_PWRCOM 0;
  mk_opcode "mullw." (m_XO 31 235 0 1) m_XO_MASK m_PPCCOM 0;
  mk_opcode "muls." (m_XO 31 235 0 1) m_XO_MASK m_PWRCOM 0;
  mk_opcode "icblce" (m_X 31 238) m_X_MASK m_PPCCHLK (m_E500MC .| m_PPCA2);
  mk_opcode "msgclr" (m_XRTRA 31 238 0 0) m_XRTRA_MASK ((m_E500MC .| m_PPCA2) .| m_POWER8) 0;
  mk_opcode "mtsrin" (m_X 31 242) m_XRA_MASK m_PPC m_NON32;
  mk_opcode "mtsri" (m_X 31 242) m_XRA_MASK m_POWER m_NON32;
  mk_opcode "mtfprwz" (m_X 31 243) (m_XX1RB_MASK .| 1) m_PPCVSX2 0;
  mk_opcode "mtvrwz" ((m_X 31 243) .| 1) (m_XX1RB_MASK .| 1) m_PPCVSX2 0;
  mk_opcode "mtvsrwz" (m_X 31 243) m_XX1RB_MASK m_PPCVSX2 0].
(* qtlib/ppc-opc.c:5623-5763 *)
Definition opcodes_19 : list opcode := [
  mk_opcode "dcbtstt" (m_XRT 31 246 0x10) m_XRT_MASK m_POWER7 0;
  mk_opcode "dcbtst" (m_X 31 246) m_X_MASK m_POWER4 m_DCBT_EO;
  mk_opcode "dcbtst" (m_X 31 246) m_X_MASK m_DCBT_EO 0;
  mk_opcode "dcbtst" (m_X 31 246) m_X_MASK m_PPC (m_POWER4 .| m_DCBT_EO);
  mk_opcode "stbux" (m_X 31 247) m_X_MASK m_COM 0;
  mk_opcode "slliq" (m_XRC 31 248 0) m_X_MASK m_M601 0;
  mk_opcode "slliq." (m_XRC 31 248 1) m_X_MASK m_M601 0;
  mk_opcode "bpermd" (m_X 31 252) m_X_MASK (m_POWER7 .| m_PPCA2) 0;
  mk_opcode "dcbtstep" (m_XRT 31 255 0) m_X_MASK (m_E500MC .| m_PPCA2) 0;
  mk_opcode "mfdcrx" (m_X 31 259) m_X_MASK ((m_BOOKE .| m_PPCA2) .| m_PPC476) m_TITAN;
  mk_opcode "mfdcrx." (m_XRC 31 259 1) m_X_MASK m_PPCA2 0;
  mk_opcode "lvexbx" (m_X 31 261) m_X_MASK m_E6500 0;
  mk_opcode "icbt" (m_X 31 262) m_XRT_MASK m_PPC403 0;
  mk_opcode "lvepxl" (m_X 31 263) m_X_MASK m_E6500 0;
  mk_opcode "ldfcmx" (m_APU 31 263 0) m_APU_MASK m_PPC405 0;
  mk_opcode "doz" (m_XO 31 264 0 0) m_XO_MASK m_M601 0;
  mk_opcode "doz." (m_XO 31 264 0 1) m_XO_MASK m_M601 0;
  mk_opcode "modud" (m_X 31 265) m_X_MASK m_POWER9 0;
  mk_opcode "add" (m_XO 31 266 0 0) m_XO_MASK m_PPCCOM 0;
  mk_opcode "cax" (m_XO 31 266 0 0) m_XO_MASK m_PWRCOM 0;
  mk_opcode "add." (m_XO 31 266 0 1) m_XO_MASK m_PPCCOM 0;
  mk_opcode "cax." (m_XO 31 266 0 1) m_XO_MASK m_PWRCOM 0;
  mk_opcode "moduw" (m_X 31 267) m_X_MASK m_POWER9 0;
  mk_opcode "lxvx" (m_X 31 268) (m_XX1_MASK .| (1 .<< 6)) m_PPCVSX3 0;
  mk_opcode "lxvl" (m_X 31 269) m_XX1_MASK m_PPCVSX3 0;
  mk_opcode "ehpriv" (m_X 31 270) 0xffffffff (m_E500MC .| m_PPCA2) 0;
  mk_opcode "tlbiel" (m_X 31 274) (m_X_MASK .| (1 .<< 20)) m_POWER9 0;
  mk_opcode "tlbiel" (m_X 31 274) m_XRTLRA_MASK m_POWER4 (m_POWER9 .| m_PPC476);
  mk_opcode "mfapidi" (m_X 31 275) m_X_MASK m_BOOKE (m_E500 .| m_TITAN);
  mk_opcode "lqarx" (m_X 31 276) (m_XEH_MASK .| m_Q_MASK) m_POWER8 0;
  mk_opcode "lscbx" (m_XRC 31 277 0) m_X_MASK m_M601 0;
  mk_opcode "lscbx." (m_XRC 31 277 1) m_X_MASK m_M601 0;
  mk_opcode "dcbtt" (m_XRT 31 278 0x10) m_XRT_MASK m_POWER7 0;
  mk_opcode "dcbt" (m_X 31 278) m_X_MASK m_POWER4 m_DCBT_EO;
  mk_opcode "dcbt" (m_X 31 278) m_X_MASK m_DCBT_EO 0;
  mk_opcode "dcbt" (m_X 31 278) m_X_MASK m_PPC (m_POWER4 .| m_DCBT_EO);
  mk_opcode "lhzx" (m_X 31 279) m_X_MASK m_COM 0;
  mk_opcode "cdtbcd" (m_X 31 282) m_XRB_MASK m_POWER6 0;
  mk_opcode "eqv" (m_XRC 31 284 0) m_X_MASK m_COM 0;
  mk_opcode "eqv." (m_XRC 31 284 1) m_X_MASK m_COM 0;
  mk_opcode "lhepx" (m_X 31 287) m_X_MASK (m_E500MC .| m_PPCA2) 0;
  mk_opcode "mfdcrux" (m_X 31 291) m_X_MASK (m_PPC464 .| m_PPC476) 0;
  mk_opcode "lvexhx" (m_X 31 293) m_X_MASK m_E6500 0;
  mk_opcode "lvepx" (m_X 31 295) m_X_MASK m_E6500 0;
  mk_opcode "lxvll" (m_X 31 301) m_XX1_MASK m_PPCVSX3 0;
  mk_opcode "mfbhrbe" (m_X 31 302) m_X_MASK m_POWER8 0;
  mk_opcode "tlbie" (m_X 31 306) (m_X_MASK .| (1 .<< 20)) m_POWER9 m_TITAN;
  mk_opcode "tlbie" (m_X 31 306) m_XRA_MASK m_POWER7 (m_POWER9 .| m_TITAN);
  mk_opcode "tlbie" (m_X 31 306) m_XRTLRA_MASK m_PPC ((m_E500 .| m_POWER7) .| m_TITAN);
  mk_opcode "tlbi" (m_X 31 306) m_XRT_MASK m_POWER 0;
  mk_opcode "mfvsrld" (m_X 31 307) m_XX1RB_MASK m_PPCVSX3 0;
  mk_opcode "ldmx" (m_X 31 309) m_X_MASK m_POWER9 0;
  mk_opcode "eciwx" (m_X 31 310) m_X_MASK m_PPC (m_E500 .| m_TITAN);
  mk_opcode "lhzux" (m_X 31 311) m_X_MASK m_COM 0;
  mk_opcode "cbcdtd" (m_X 31 314) m_XRB_MASK m_POWER6 0;
  mk_opcode "xor" (m_XRC 31 316 0) m_X_MASK m_COM 0;
  mk_opcode "xor." (m_XRC 31 316 1) m_X_MASK m_COM 0;
  mk_opcode "dcbtep" (m_XRT 31 319 0) m_X_MASK (m_E500MC .| m_PPCA2) 0;
  mk_opcode "mfexisr" (m_XSPR 31 323 64) m_XSPR_MASK m_PPC403 0;
  mk_opcode "mfexier" (m_XSPR 31 323 66) m_XSPR_MASK m_PPC403 0;
  mk_opcode "mfbr0" (m_XSPR 31 323 128) m_XSPR_MASK m_PPC403 0;
  mk_opcode "mfbr1" (m_XSPR 31 323 129) m_XSPR_MASK m_PPC403 0;
  mk_opcode "mfbr2" (m_XSPR 31 323 130) m_XSPR_MASK m_PPC403 0;
  mk_opcode "mfbr3" (m_XSPR 31 323 131) m_XSPR_MASK m_PPC403 0;
  mk_opcode "mfbr4" (m_XSPR 31 323 132) m_XSPR_MASK m_PPC403 0;
  mk_opcode "mfbr5" (m_XSPR 31 323 133) m_XSPR_MASK m_PPC403 0;
  mk_opcode "mfbr6" (m_XSPR 31 323 134) m_XSPR_MASK m_PPC403 0;
  mk_opcode "mfbr7" (m_XSPR 31 323 135) m_XSPR_MASK m_PPC403 0;
  mk_opcode "mfbear" (m_XSPR 31 323 144) m_XSPR_MASK m_PPC403 0;
  mk_opcode "mfbesr" (m_XSPR 31 323 145) m_XSPR_MASK m_PPC403 0;
  mk_opcode "mfiocr" (m_XSPR 31 323 160) m_XSPR_MASK m_PPC403 0;
  mk_opcode "mfdmacr0" (m_XSPR 31 323 192) m_XSPR_MASK m_PPC403 0;
  mk_opcode "mfdmact0" (m_XSPR 31 323 193) m_XSPR_MASK m_PPC403 0;
  mk_opcode "mfdmada0" (m_XSPR 31 323 194) m_XSPR_MASK m_PPC403 0;
  mk_opcode "mfdmasa0" (m_XSPR 31 323 195) m_XSPR_MASK m_PPC403 0;
  mk_opcode "mfdmacc0" (m_XSPR 31 323 196) m_XSPR_MASK m_PPC403 0;
  mk_opcode "mfdmacr1" (m_XSPR 31 323 200) m_XSPR_MASK m_PPC403 0;
  mk_opcode "mfdmact1" (m_XSPR 31 323 201) m_XSPR_MASK m_PPC403 0;
  mk_opcode "mfdmada1" (m_XSPR 31 323 202) m_XSPR_MASK m_PPC403 0;
  mk_opcode "mfdmasa1" (m_XSPR 31 323 203) m_XSPR_MASK m_PPC403 0;
  mk_opcode "mfdmacc1" (m_XSPR 31 323 204) m_XSPR_MASK m_PPC403 0;
  mk_opcode "mfdmacr2" (m_XSPR 31 323 208) m_XSPR_MASK m_PPC403 0;
  mk_opcode "mfdmact2" (m_XSPR 31 323 209) m_XSPR_MASK m_PPC403 0;
  mk_opcode "mfdmada2" (m_XSPR 31 323 210) m_XSPR_MASK m_PPC403 0;
  mk_opcode "mfdmasa2" (m_XSPR 31 323 211) m_XSPR_MASK m_PPC403 0;
  mk_opcode "mfdmacc2" (m_XSPR 31 323 212) m_XSPR_MASK m_PPC403 0;
  mk_opcode "mfdmacr3" (m_XSPR 31 323 216) m_XSPR_MASK m_PPC403 0;
  mk_opcode "mfdmact3" (m_XSPR 31 323 217) m_XSPR_MASK m_PPC403 0;
  mk_opcode "mfdmada3" (m_XSPR 31 323 218) m_XSPR_MASK m_PPC403 0;
  mk_opcode "mfdmasa3" (m_XSPR 31 323 219) m_XSPR_MASK m_PPC403 0;
  mk_opcode "mfdmacc3" (m_XSPR 31 323 220) m_XSPR_MASK m_PPC403 0;
  mk_opcode "mfdmasr" (m_XSPR 31 323 224) m_XSPR_MASK m_PPC403 0;
  mk_opcode "mfdcr" (m_X 31 323) m_X_MASK (((m_PPC403 .| m_BOOKE) .| m_PPCA2) .| m_PPC476) (m_E500 .| m_TITAN);
  mk_opcode "mfdcr." (m_XRC 31 323 1) m_X_MASK m_PPCA2 0;
  mk_opcode "lvexwx" (m_X 31 325) m_X_MASK m_E6500 0;
  mk_opcode "dcread" (m_X 31 326) m_X_MASK (m_PPC476 .| m_TITAN) 0;
  mk_opcode "div" (m_XO 31 331 0 0) m_XO_MASK m_M601 0;
  mk_opcode "div." (m_XO 31 331 0 1) m_XO_MASK m_M601 0;
  mk_opcode "lxvdsx" (m_X 31 332) m_XX1_MASK m_PPCVSX 0;
  mk_opcode "mfpmr" (m_X 31 334) m_X_MASK (m_PPCPMR .| m_PPCE300) 0].
(* qtlib/ppc-opc.c:5764-5865 *)
Definition opcodes_20 : list opcode := [
  mk_opcode "mftmr" (m_X 31 366) m_X_MASK m_PPCTMR 0;
  mk_opcode "slbsync" (m_X 31 338) 0xffffffff m_POWER9 0;
  mk_opcode "mfmq" (m_XSPR 31 339 0) m_XSPR_MASK m_M601 0;
  mk_opcode "mfxer" (m_XSPR 31 339 1) m_XSPR_MASK m_COM 0;
  mk_opcode "mfrtcu" (m_XSPR 31 339 4) m_XSPR_MASK m_COM m_TITAN;
  mk_opcode "mfrtcl" (m_XSPR 31 339 5) m_XSPR_MASK m_COM m_TITAN;
  mk_opcode "mfdec" (m_XSPR 31 339 6) m_XSPR_MASK m_MFDEC1 0;
  mk_opcode "mflr" (m_XSPR 31 339 8) m_XSPR_MASK m_COM 0;
  mk_opcode "mfctr" (m_XSPR 31 339 9) m_XSPR_MASK m_COM 0;
  mk_opcode "mfdscr" (m_XSPR 31 339 17) m_XSPR_MASK m_POWER6 0;
  mk_opcode "mftid" (m_XSPR 31 339 17) m_XSPR_MASK m_POWER 0;
  mk_opcode "mfdsisr" (m_XSPR 31 339 18) m_XSPR_MASK m_COM m_TITAN;
  mk_opcode "mfdar" (m_XSPR 31 339 19) m_XSPR_MASK m_COM m_TITAN;
  mk_opcode "mfdec" (m_XSPR 31 339 22) m_XSPR_MASK m_MFDEC2 m_MFDEC1;
  mk_opcode "mfsdr0" (m_XSPR 31 339 24) m_XSPR_MASK m_POWER 0;
  mk_opcode "mfsdr1" (m_XSPR 31 339 25) m_XSPR_MASK m_COM m_TITAN;
  mk_opcode "mfsrr0" (m_XSPR 31 339 26) m_XSPR_MASK m_COM 0;
  mk_opcode "mfsrr1" (m_XSPR 31 339 27) m_XSPR_MASK m_COM 0;
  mk_opcode "mfcfar" (m_XSPR 31 339 28) m_XSPR_MASK m_POWER6 0;
  mk_opcode "mfpid" (m_XSPR 31 339 48) m_XSPR_MASK m_BOOKE 0;
  mk_opcode "mfcsrr0" (m_XSPR 31 339 58) m_XSPR_MASK m_BOOKE 0;
  mk_opcode "mfcsrr1" (m_XSPR 31 339 59) m_XSPR_MASK m_BOOKE 0;
  mk_opcode "mfdear" (m_XSPR 31 339 61) m_XSPR_MASK m_BOOKE 0;
  mk_opcode "mfesr" (m_XSPR 31 339 62) m_XSPR_MASK m_BOOKE 0;
  mk_opcode "mfivpr" (m_XSPR 31 339 63) m_XSPR_MASK m_BOOKE 0;
  mk_opcode "mfctrl" (m_XSPR 31 339 136) m_XSPR_MASK m_POWER4 0;
  mk_opcode "mfcmpa" (m_XSPR 31 339 144) m_XSPR_MASK m_PPC860 0;
  mk_opcode "mfcmpb" (m_XSPR 31 339 145) m_XSPR_MASK m_PPC860 0;
  mk_opcode "mfcmpc" (m_XSPR 31 339 146) m_XSPR_MASK m_PPC860 0;
  mk_opcode "mfcmpd" (m_XSPR 31 339 147) m_XSPR_MASK m_PPC860 0;
  mk_opcode "mficr" (m_XSPR 31 339 148) m_XSPR_MASK m_PPC860 0;
  mk_opcode "mfder" (m_XSPR 31 339 149) m_XSPR_MASK m_PPC860 0;
  mk_opcode "mfcounta" (m_XSPR 31 339 150) m_XSPR_MASK m_PPC860 0;
  mk_opcode "mfcountb" (m_XSPR 31 339 151) m_XSPR_MASK m_PPC860 0;
  mk_opcode "mfcmpe" (m_XSPR 31 339 152) m_XSPR_MASK m_PPC860 0;
  mk_opcode "mfcmpf" (m_XSPR 31 339 153) m_XSPR_MASK m_PPC860 0;
  mk_opcode "mfcmpg" (m_XSPR 31 339 154) m_XSPR_MASK m_PPC860 0;
  mk_opcode "mfcmph" (m_XSPR 31 339 155) m_XSPR_MASK m_PPC860 0;
  mk_opcode "mflctrl1" (m_XSPR 31 339 156) m_XSPR_MASK m_PPC860 0;
  mk_opcode "mflctrl2" (m_XSPR 31 339 157) m_XSPR_MASK m_PPC860 0;
  mk_opcode "mfictrl" (m_XSPR 31 339 158) m_XSPR_MASK m_PPC860 0;
  mk_opcode "mfbar" (m_XSPR 31 339 159) m_XSPR_MASK m_PPC860 0;
  mk_opcode "mfvrsave" (m_XSPR 31 339 256) m_XSPR_MASK m_PPCVEC 0;
  mk_opcode "mfusprg0" (m_XSPR 31 339 256) m_XSPR_MASK m_BOOKE 0;
  mk_opcode "mfsprg" (m_XSPR 31 339 256) m_XSPRG_MASK m_PPC 0;
  mk_opcode "mfsprg4" (m_XSPR 31 339 260) m_XSPR_MASK (m_PPC405 .| m_BOOKE) 0;
  mk_opcode "mfsprg5" (m_XSPR 31 339 261) m_XSPR_MASK (m_PPC405 .| m_BOOKE) 0;
  mk_opcode "mfsprg6" (m_XSPR 31 339 262) m_XSPR_MASK (m_PPC405 .| m_BOOKE) 0;
  mk_opcode "mfsprg7" (m_XSPR 31 339 263) m_XSPR_MASK (m_PPC405 .| m_BOOKE) 0;
  mk_opcode "mftbu" (m_XSPR 31 339 269) m_XSPR_MASK (m_POWER4 .| m_BOOKE) 0;
  mk_opcode "mftb" (m_X 31 339) m_X_MASK (m_POWER4 .| m_BOOKE) 0;
  mk_opcode "mftbl" (m_XSPR 31 339 268) m_XSPR_MASK (m_POWER4 .| m_BOOKE) 0;
  mk_opcode "mfsprg0" (m_XSPR 31 339 272) m_XSPR_MASK m_PPC 0;
  mk_opcode "mfsprg1" (m_XSPR 31 339 273) m_XSPR_MASK m_PPC 0;
  mk_opcode "mfsprg2" (m_XSPR 31 339 274) m_XSPR_MASK m_PPC 0;
  mk_opcode "mfsprg3" (m_XSPR 31 339 275) m_XSPR_MASK m_PPC 0;
  mk_opcode "mfasr" (m_XSPR 31 339 280) m_XSPR_MASK m_PPC64 0;
  mk_opcode "mfear" (m_XSPR 31 339 282) m_XSPR_MASK m_PPC m_TITAN;
  mk_opcode "mfpir" (m_XSPR 31 339 286) m_XSPR_MASK m_BOOKE 0;
  mk_opcode "mfpvr" (m_XSPR 31 339 287) m_XSPR_MASK m_PPC 0;
  mk_opcode "mfdbsr" (m_XSPR 31 339 304) m_XSPR_MASK m_BOOKE 0;
  mk_opcode "mfdbcr0" (m_XSPR 31 339 308) m_XSPR_MASK m_BOOKE 0;
  mk_opcode "mfdbcr1" (m_XSPR 31 339 309) m_XSPR_MASK m_BOOKE 0;
  mk_opcode "mfdbcr2" (m_XSPR 31 339 310) m_XSPR_MASK m_BOOKE 0;
  mk_opcode "mfiac1" (m_XSPR 31 339 312) m_XSPR_MASK m_BOOKE 0;
  mk_opcode "mfiac2" (m_XSPR 31 339 313) m_XSPR_MASK m_BOOKE 0;
  mk_opcode "mfiac3" (m_XSPR 31 339 314) m_XSPR_MASK m_BOOKE 0;
  mk_opcode "mfiac4" (m_XSPR 31 339 315) m_XSPR_MASK m_BOOKE 0;
  mk_opcode "mfdac1" (m_XSPR 31 339 316) m_XSPR_MASK m_BOOKE 0;
  mk_opcode "mfdac2" (m_XSPR 31 339 317) m_XSPR_MASK m_BOOKE 0;
  mk_opcode "mfdvc1" (m_XSPR 31 339 318) m_XSPR_MASK m_BOOKE 0;
  mk_opcode "mfdvc2" (m_XSPR 31 339 319) m_XSPR_MASK m_BOOKE 0;
  mk_opcode "mftsr" (m_XSPR 31 339 336) m_XSPR_MASK m_BOOKE 0;
  mk_opcode "mftcr" (m_XSPR 31 339 340) m_XSPR_MASK m_BOOKE 0;
  mk_opcode "mfivor0" (m_XSPR 31 339 400) m_XSPR_MASK m_BOOKE 0;
  mk_opcode "mfivor1" (m_XSPR 31 339 401) m_XSPR_MASK m_BOOKE 0;
  mk_opcode "mfivor2" (m_XSPR 31 339 402) m_XSPR_MASK m_BOOKE 0;
  mk_opcode "mfivor3" (m_XSPR 31 339 403) m_XSPR_MASK m_BOOKE 0;
  mk_opcode "mfivor4" (m_XSPR 31 339 404) m_XSPR_MASK m_BOOKE 0;
  mk_opcode "mfivor5" (m_XSPR 31 339 405) m_XSPR_MASK m_BOOKE 0;
  mk_opcode "mfivor6" (m_XSPR 31 339 406) m_XSPR_MASK m_BOOKE 0;
  mk_opcode "mfivor7" (m_XSPR 31 339 407) m_XSPR_MASK m_BOOKE 0;
  mk_opcode "mfivor8" (m_XSPR 31 339 408) m_XSPR_MASK m_BOOKE 0;
  mk_opcode "mfivor9" (m_XSPR 31 339 409) m_XSPR_MASK m_BOOKE 0;
  mk_opcode "mfivor10" (m_XSPR 31 339 410) m_XSPR_MASK m_BOOKE 0;
  mk_opcode "mfivor11" (m_XSPR 31 339 411) m_XSPR_MASK m_BOOKE 0;
  mk_opcode "mfivor12" (m_XSPR 31 339 412) m_XSPR_MASK m_BOOKE 0;
  mk_opcode "mfivor13" (m_XSPR 31 339 413) m_XSPR_MASK m_BOOKE 0;
  mk_opcode "mfivor14" (m_XSPR 31 339 414) m_XSPR_MASK m_BOOKE 0;
  mk_opcode "mfivor15" (m_XSPR 31 339 415) m_XSPR_MASK m_BOOKE 0;
  mk_opcode "mfspefscr" (m_XSPR 31 339 512) m_XSPR_MASK m_PPCSPE 0;
  mk_opcode "mfbbear" (m_XSPR 31 339 513) m_XSPR_MASK m_PPCBRLK 0;
  mk_opcode "mfbbtar" (m_XSPR 31 339 514) m_XSPR_MASK m_PPCBRLK 0;
  mk_opcode "mfivor32" (m_XSPR 31 339 528) m_XSPR_MASK (m_PPCSPE .| m_E6500) 0;
  mk_opcode "mfivor33" (m_XSPR 31 339 529) m_XSPR_MASK (m_PPCSPE .| m_E6500) 0;
  mk_opcode "mfivor34" (m_XSPR 31 339 530) m_XSPR_MASK m_PPCSPE 0;
  mk_opcode "mfivor35" (m_XSPR 31 339 531) m_XSPR_MASK m_PPCPMR 0;
  mk_opcode "mfibatu" (m_XSPR 31 339 528) m_XSPRBAT_MASK m_PPC m_TITAN;
  mk_opcode "mfibatl" (m_XSPR 31 339 529) m_XSPRBAT_MASK m_PPC m_TITAN;
  mk_opcode "mfdbatu" (m_XSPR 31 339 536) m_XSPRBAT_MASK m_PPC m_TITAN].
(* qtlib/ppc-opc.c:5866-5965 *)
Definition opcodes_21 : list opcode := [
  mk_opcode "mfdbatl" (m_XSPR 31 339 537) m_XSPRBAT_MASK m_PPC m_TITAN;
  mk_opcode "mfic_cst" (m_XSPR 31 339 560) m_XSPR_MASK m_PPC860 0;
  mk_opcode "mfic_adr" (m_XSPR 31 339 561) m_XSPR_MASK m_PPC860 0;
  mk_opcode "mfic_dat" (m_XSPR 31 339 562) m_XSPR_MASK m_PPC860 0;
  mk_opcode "mfdc_cst" (m_XSPR 31 339 568) m_XSPR_MASK m_PPC860 0;
  mk_opcode "mfdc_adr" (m_XSPR 31 339 569) m_XSPR_MASK m_PPC860 0;
  mk_opcode "mfdc_dat" (m_XSPR 31 339 570) m_XSPR_MASK m_PPC860 0;
  mk_opcode "mfmcsrr0" (m_XSPR 31 339 570) m_XSPR_MASK m_PPCRFMCI 0;
  mk_opcode "mfmcsrr1" (m_XSPR 31 339 571) m_XSPR_MASK m_PPCRFMCI 0;
  mk_opcode "mfmcsr" (m_XSPR 31 339 572) m_XSPR_MASK m_PPCRFMCI 0;
  mk_opcode "mfmcar" (m_XSPR 31 339 573) m_XSPR_MASK m_PPCRFMCI m_TITAN;
  mk_opcode "mfdpdr" (m_XSPR 31 339 630) m_XSPR_MASK m_PPC860 0;
  mk_opcode "mfdpir" (m_XSPR 31 339 631) m_XSPR_MASK m_PPC860 0;
  mk_opcode "mfimmr" (m_XSPR 31 339 638) m_XSPR_MASK m_PPC860 0;
  mk_opcode "mfupmc1" (m_XSPR 31 339 771) m_XSPR_MASK m_POWER9 0;
  mk_opcode "mfpmc1" (m_XSPR 31 339 771) m_XSPR_MASK m_POWER9 0;
  mk_opcode "mfupmc2" (m_XSPR 31 339 772) m_XSPR_MASK m_POWER9 0;
  mk_opcode "mfpmc2" (m_XSPR 31 339 772) m_XSPR_MASK m_POWER9 0;
  mk_opcode "mfupmc3" (m_XSPR 31 339 773) m_XSPR_MASK m_POWER9 0;
  mk_opcode "mfpmc3" (m_XSPR 31 339 773) m_XSPR_MASK m_POWER9 0;
  mk_opcode "mfupmc4" (m_XSPR 31 339 774) m_XSPR_MASK m_POWER9 0;
  mk_opcode "mfpmc4" (m_XSPR 31 339 774) m_XSPR_MASK m_POWER9 0;
  mk_opcode "mfupmc5" (m_XSPR 31 339 775) m_XSPR_MASK m_POWER9 0;
  mk_opcode "mfpmc5" (m_XSPR 31 339 775) m_XSPR_MASK m_POWER9 0;
  mk_opcode "mfupmc6" (m_XSPR 31 339 776) m_XSPR_MASK m_POWER9 0;
  mk_opcode "mfpmc6" (m_XSPR 31 339 776) m_XSPR_MASK m_POWER9 0;
  mk_opcode "mfmi_ctr" (m_XSPR 31 339 784) m_XSPR_MASK m_PPC860 0;
  mk_opcode "mfmi_ap" (m_XSPR 31 339 786) m_XSPR_MASK m_PPC860 0;
  mk_opcode "mfmi_epn" (m_XSPR 31 339 787) m_XSPR_MASK m_PPC860 0;
  mk_opcode "mfmi_twc" (m_XSPR 31 339 789) m_XSPR_MASK m_PPC860 0;
  mk_opcode "mfmi_rpn" (m_XSPR 31 339 790) m_XSPR_MASK m_PPC860 0;
  mk_opcode "mfmd_ctr" (m_XSPR 31 339 792) m_XSPR_MASK m_PPC860 0;
  mk_opcode "mfm_casid" (m_XSPR 31 339 793) m_XSPR_MASK m_PPC860 0;
  mk_opcode "mfmd_ap" (m_XSPR 31 339 794) m_XSPR_MASK m_PPC860 0;
  mk_opcode "mfmd_epn" (m_XSPR 31 339 795) m_XSPR_MASK m_PPC860 0;
  mk_opcode "mfmd_twb" (m_XSPR 31 339 796) m_XSPR_MASK m_PPC860 0;
  mk_opcode "mfmd_twc" (m_XSPR 31 339 797) m_XSPR_MASK m_PPC860 0;
  mk_opcode "mfmd_rpn" (m_XSPR 31 339 798) m_XSPR_MASK m_PPC860 0;
  mk_opcode "mfm_tw" (m_XSPR 31 339 799) m_XSPR_MASK m_PPC860 0;
  mk_opcode "mfmi_dbcam" (m_XSPR 31 339 816) m_XSPR_MASK m_PPC860 0;
  mk_opcode "mfmi_dbram0" (m_XSPR 31 339 817) m_XSPR_MASK m_PPC860 0;
  mk_opcode "mfmi_dbram1" (m_XSPR 31 339 818) m_XSPR_MASK m_PPC860 0;
  mk_opcode "mfmd_dbcam" (m_XSPR 31 339 824) m_XSPR_MASK m_PPC860 0;
  mk_opcode "mfmd_dbram0" (m_XSPR 31 339 825) m_XSPR_MASK m_PPC860 0;
  mk_opcode "mfmd_dbram1" (m_XSPR 31 339 826) m_XSPR_MASK m_PPC860 0;
  mk_opcode "mfivndx" (m_XSPR 31 339 880) m_XSPR_MASK m_TITAN 0;
  mk_opcode "mfdvndx" (m_XSPR 31 339 881) m_XSPR_MASK m_TITAN 0;
  mk_opcode "mfivlim" (m_XSPR 31 339 882) m_XSPR_MASK m_TITAN 0;
  mk_opcode "mfdvlim" (m_XSPR 31 339 883) m_XSPR_MASK m_TITAN 0;
  mk_opcode "mfclcsr" (m_XSPR 31 339 884) m_XSPR_MASK m_TITAN 0;
  mk_opcode "mfccr1" (m_XSPR 31 339 888) m_XSPR_MASK m_TITAN 0;
  mk_opcode "mfppr" (m_XSPR 31 339 896) m_XSPR_MASK m_POWER7 0;
  mk_opcode "mfppr32" (m_XSPR 31 339 898) m_XSPR_MASK m_POWER7 0;
  mk_opcode "mfgqr" (m_XSPR 31 339 912) m_XSPRGQR_MASK m_PPCPS 0;
  mk_opcode "mfhid2" (m_XSPR 31 339 920) m_XSPR_MASK m_GEKKO 0;
  mk_opcode "mfwpar" (m_XSPR 31 339 921) m_XSPR_MASK m_GEKKO 0;
  mk_opcode "mfdmau" (m_XSPR 31 339 922) m_XSPR_MASK m_GEKKO 0;
  mk_opcode "mfdmal" (m_XSPR 31 339 923) m_XSPR_MASK m_GEKKO 0;
  mk_opcode "mfrstcfg" (m_XSPR 31 339 923) m_XSPR_MASK m_TITAN 0;
  mk_opcode "mfdcdbtrl" (m_XSPR 31 339 924) m_XSPR_MASK m_TITAN 0;
  mk_opcode "mfdcdbtrh" (m_XSPR 31 339 925) m_XSPR_MASK m_TITAN 0;
  mk_opcode "mficdbtr" (m_XSPR 31 339 927) m_XSPR_MASK m_TITAN 0;
  mk_opcode "mfummcr0" (m_XSPR 31 339 936) m_XSPR_MASK m_PPC750 0;
  mk_opcode "mfupmc1" (m_XSPR 31 339 937) m_XSPR_MASK m_PPC750 0;
  mk_opcode "mfupmc2" (m_XSPR 31 339 938) m_XSPR_MASK m_PPC750 0;
  mk_opcode "mfusia" (m_XSPR 31 339 939) m_XSPR_MASK m_PPC750 0;
  mk_opcode "mfummcr1" (m_XSPR 31 339 940) m_XSPR_MASK m_PPC750 0;
  mk_opcode "mfupmc3" (m_XSPR 31 339 941) m_XSPR_MASK m_PPC750 0;
  mk_opcode "mfupmc4" (m_XSPR 31 339 942) m_XSPR_MASK m_PPC750 0;
  mk_opcode "mfzpr" (m_XSPR 31 339 944) m_XSPR_MASK m_PPC403 0;
  mk_opcode "mfpid" (m_XSPR 31 339 945) m_XSPR_MASK m_PPC403 0;
  mk_opcode "mfmmucr" (m_XSPR 31 339 946) m_XSPR_MASK m_TITAN 0;
  mk_opcode "mfccr0" (m_XSPR 31 339 947) m_XSPR_MASK (m_PPC405 .| m_TITAN) 0;
  mk_opcode "mfiac3" (m_XSPR 31 339 948) m_XSPR_MASK m_PPC405 0;
  mk_opcode "mfiac4" (m_XSPR 31 339 949) m_XSPR_MASK m_PPC405 0;
  mk_opcode "mfdvc1" (m_XSPR 31 339 950) m_XSPR_MASK m_PPC405 0;
  mk_opcode "mfdvc2" (m_XSPR 31 339 951) m_XSPR_MASK m_PPC405 0;
  mk_opcode "mfmmcr0" (m_XSPR 31 339 952) m_XSPR_MASK m_PPC750 0;
  mk_opcode "mfpmc1" (m_XSPR 31 339 953) m_XSPR_MASK m_PPC750 0;
  mk_opcode "mfsgr" (m_XSPR 31 339 953) m_XSPR_MASK m_PPC403 0;
  mk_opcode "mfdcwr" (m_XSPR 31 339 954) m_XSPR_MASK m_PPC403 0;
  mk_opcode "mfpmc2" (m_XSPR 31 339 954) m_XSPR_MASK m_PPC750 0;
  mk_opcode "mfsia" (m_XSPR 31 339 955) m_XSPR_MASK m_PPC750 0;
  mk_opcode "mfsler" (m_XSPR 31 339 955) m_XSPR_MASK m_PPC405 0;
  mk_opcode "mfmmcr1" (m_XSPR 31 339 956) m_XSPR_MASK m_PPC750 0;
  mk_opcode "mfsu0r" (m_XSPR 31 339 956) m_XSPR_MASK m_PPC405 0;
  mk_opcode "mfdbcr1" (m_XSPR 31 339 957) m_XSPR_MASK m_PPC405 0;
  mk_opcode "mfpmc3" (m_XSPR 31 339 957) m_XSPR_MASK m_PPC750 0;
  mk_opcode "mfpmc4" (m_XSPR 31 339 958) m_XSPR_MASK m_PPC750 0;
  mk_opcode "mficdbdr" (m_XSPR 31 339 979) m_XSPR_MASK (m_PPC403 .| m_TITAN) 0;
  mk_opcode "mfesr" (m_XSPR 31 339 980) m_XSPR_MASK m_PPC403 0;
  mk_opcode "mfdear" (m_XSPR 31 339 981) m_XSPR_MASK m_PPC403 0;
  mk_opcode "mfevpr" (m_XSPR 31 339 982) m_XSPR_MASK m_PPC403 0;
  mk_opcode "mfcdbcr" (m_XSPR 31 339 983) m_XSPR_MASK m_PPC403 0;
  mk_opcode "mftsr" (m_XSPR 31 339 984) m_XSPR_MASK m_PPC403 0;
  mk_opcode "mftcr" (m_XSPR 31 339 986) m_XSPR_MASK m_PPC403 0;
  mk_opcode "mfpit" (m_XSPR 31 339 987) m_XSPR_MASK m_PPC403 0;
  mk_opcode "mftbhi" (m_XSPR 31 339 988) m_XSPR_MASK m_PPC403 0;
  mk_opcode "mftblo" (m_XSPR 31 339 989) m_XSPR_MASK m_PPC403 0;
  mk_opcode "mfsrr2" (m_XSPR 31 339 990) m_XSPR_MASK m_PPC403 0].
(* qtlib/ppc-opc.c:5966-6107 *)
Definition opcodes_22 : list opcode := [
  mk_opcode "mfsrr3" (m_XSPR 31 339 991) m_XSPR_MASK m_PPC403 0;
  mk_opcode "mfdbsr" (m_XSPR 31 339 1008) m_XSPR_MASK m_PPC403 0;
  mk_opcode "mfhid0" (m_XSPR 31 339 1008) m_XSPR_MASK m_GEKKO 0;
  mk_opcode "mfhid1" (m_XSPR 31 339 1009) m_XSPR_MASK m_GEKKO 0;
  mk_opcode "mfdbcr0" (m_XSPR 31 339 1010) m_XSPR_MASK m_PPC405 0;
  mk_opcode "mfiabr" (m_XSPR 31 339 1010) m_XSPR_MASK m_GEKKO 0;
  mk_opcode "mfhid4" (m_XSPR 31 339 1011) m_XSPR_MASK m_BROADWAY 0;
  mk_opcode "mfdbdr" (m_XSPR 31 339 1011) m_XSPR_MASK m_TITAN 0;
  mk_opcode "mfiac1" (m_XSPR 31 339 1012) m_XSPR_MASK m_PPC403 0;
  mk_opcode "mfiac2" (m_XSPR 31 339 1013) m_XSPR_MASK m_PPC403 0;
  mk_opcode "mfdabr" (m_XSPR 31 339 1013) m_XSPR_MASK m_PPC750 0;
  mk_opcode "mfdac1" (m_XSPR 31 339 1014) m_XSPR_MASK m_PPC403 0;
  mk_opcode "mfdac2" (m_XSPR 31 339 1015) m_XSPR_MASK m_PPC403 0;
  mk_opcode "mfl2cr" (m_XSPR 31 339 1017) m_XSPR_MASK m_PPC750 0;
  mk_opcode "mfdccr" (m_XSPR 31 339 1018) m_XSPR_MASK m_PPC403 0;
  mk_opcode "mficcr" (m_XSPR 31 339 1019) m_XSPR_MASK m_PPC403 0;
  mk_opcode "mfictc" (m_XSPR 31 339 1019) m_XSPR_MASK m_PPC750 0;
  mk_opcode "mfpbl1" (m_XSPR 31 339 1020) m_XSPR_MASK m_PPC403 0;
  mk_opcode "mfthrm1" (m_XSPR 31 339 1020) m_XSPR_MASK m_PPC750 0;
  mk_opcode "mfpbu1" (m_XSPR 31 339 1021) m_XSPR_MASK m_PPC403 0;
  mk_opcode "mfthrm2" (m_XSPR 31 339 1021) m_XSPR_MASK m_PPC750 0;
  mk_opcode "mfpbl2" (m_XSPR 31 339 1022) m_XSPR_MASK m_PPC403 0;
  mk_opcode "mfthrm3" (m_XSPR 31 339 1022) m_XSPR_MASK m_PPC750 0;
  mk_opcode "mfpbu2" (m_XSPR 31 339 1023) m_XSPR_MASK m_PPC403 0;
  mk_opcode "mfspr" (m_X 31 339) m_X_MASK m_COM 0;
  mk_opcode "lwax" (m_X 31 341) m_X_MASK m_PPC64 0;
  mk_opcode "dst" (m_XDSS 31 342 0) m_XDSS_MASK m_PPCVEC 0;
  mk_opcode "lhax" (m_X 31 343) m_X_MASK m_COM 0;
  mk_opcode "lvxl" (m_X 31 359) m_X_MASK m_PPCVEC 0;
  mk_opcode "abs" (m_XO 31 360 0 0) m_XORB_MASK m_M601 0;
  mk_opcode "abs." (m_XO 31 360 0 1) m_XORB_MASK m_M601 0;
  mk_opcode "divs" (m_XO 31 363 0 0) m_XO_MASK m_M601 0;
  mk_opcode "divs." (m_XO 31 363 0 1) m_XO_MASK m_M601 0;
  mk_opcode "lxvwsx" (m_X 31 364) m_XX1_MASK m_PPCVSX3 0;
  mk_opcode "tlbia" (m_X 31 370) 0xffffffff m_PPC (m_E500 .| m_TITAN);
  mk_opcode "mftbu" (m_XSPR 31 371 269) m_XSPR_MASK m_PPC (m_NO371 .| m_POWER4);
  mk_opcode "mftb" (m_X 31 371) m_X_MASK m_PPC (m_NO371 .| m_POWER4);
  mk_opcode "mftbl" (m_XSPR 31 371 268) m_XSPR_MASK m_PPC (m_NO371 .| m_POWER4);
  mk_opcode "lwaux" (m_X 31 373) m_X_MASK m_PPC64 0;
  mk_opcode "dstst" (m_XDSS 31 374 0) m_XDSS_MASK m_PPCVEC 0;
  mk_opcode "lhaux" (m_X 31 375) m_X_MASK m_COM 0;
  mk_opcode "popcntw" (m_X 31 378) m_XRB_MASK (m_POWER7 .| m_PPCA2) 0;
  mk_opcode "mtdcrx" (m_X 31 387) m_X_MASK ((m_BOOKE .| m_PPCA2) .| m_PPC476) m_TITAN;
  mk_opcode "mtdcrx." (m_XRC 31 387 1) m_X_MASK m_PPCA2 0;
  mk_opcode "stvexbx" (m_X 31 389) m_X_MASK m_E6500 0;
  mk_opcode "dcblc" (m_X 31 390) m_X_MASK ((m_PPCCHLK .| m_PPC476) .| m_TITAN) 0;
  mk_opcode "stdfcmx" (m_APU 31 391 0) m_APU_MASK m_PPC405 0;
  mk_opcode "divdeu" (m_XO 31 393 0 0) m_XO_MASK (m_POWER7 .| m_PPCA2) 0;
  mk_opcode "divdeu." (m_XO 31 393 0 1) m_XO_MASK (m_POWER7 .| m_PPCA2) 0;
  mk_opcode "divweu" (m_XO 31 395 0 0) m_XO_MASK (m_POWER7 .| m_PPCA2) 0;
  mk_opcode "divweu." (m_XO 31 395 0 1) m_XO_MASK (m_POWER7 .| m_PPCA2) 0;
  mk_opcode "stxvx" (m_X 31 396) m_XX1_MASK m_PPCVSX3 0;
  mk_opcode "stxvl" (m_X 31 397) m_XX1_MASK m_PPCVSX3 0;
  mk_opcode "dcblce" (m_X 31 398) m_X_MASK m_PPCCHLK m_E500MC;
  mk_opcode "slbmte" (m_X 31 402) m_XRA_MASK m_PPC64 0;
  mk_opcode "mtvsrws" (m_X 31 403) m_XX1RB_MASK m_PPCVSX3 0;
  mk_opcode "pbt." (m_XRC 31 404 1) m_X_MASK m_POWER8 0;
  mk_opcode "icswx" (m_XRC 31 406 0) m_X_MASK (m_POWER7 .| m_PPCA2) 0;
  mk_opcode "icswx." (m_XRC 31 406 1) m_X_MASK (m_POWER7 .| m_PPCA2) 0;
  mk_opcode "sthx" (m_X 31 407) m_X_MASK m_COM 0;
  mk_opcode "orc" (m_XRC 31 412 0) m_X_MASK m_COM 0;
  mk_opcode "orc." (m_XRC 31 412 1) m_X_MASK m_COM 0;
  mk_opcode "sthepx" (m_X 31 415) m_X_MASK (m_E500MC .| m_PPCA2) 0;
  mk_opcode "mtdcrux" (m_X 31 419) m_X_MASK (m_PPC464 .| m_PPC476) 0;
  mk_opcode "stvexhx" (m_X 31 421) m_X_MASK m_E6500 0;
  mk_opcode "dcblq." (m_XRC 31 422 1) m_X_MASK m_E6500 0;
  mk_opcode "divde" (m_XO 31 425 0 0) m_XO_MASK (m_POWER7 .| m_PPCA2) 0;
  mk_opcode "divde." (m_XO 31 425 0 1) m_XO_MASK (m_POWER7 .| m_PPCA2) 0;
  mk_opcode "divwe" (m_XO 31 427 0 0) m_XO_MASK (m_POWER7 .| m_PPCA2) 0;
  mk_opcode "divwe." (m_XO 31 427 0 1) m_XO_MASK (m_POWER7 .| m_PPCA2) 0;
  mk_opcode "stxvll" (m_X 31 429) m_XX1_MASK m_PPCVSX3 0;
  mk_opcode "clrbhrb" (m_X 31 430) 0xffffffff m_POWER8 0;
  mk_opcode "slbie" (m_X 31 434) m_XRTRA_MASK m_PPC64 0;
  mk_opcode "mtvsrdd" (m_X 31 435) m_XX1_MASK m_PPCVSX3 0;
  mk_opcode "ecowx" (m_X 31 438) m_X_MASK m_PPC (m_E500 .| m_TITAN);
  mk_opcode "sthux" (m_X 31 439) m_X_MASK m_COM 0;
  mk_opcode "mdors" 0x7f9ce378 0xffffffff m_E500MC 0;
  mk_opcode "miso" 0x7f5ad378 0xffffffff m_E6500 0;
  mk_opcode "yield" 0x7f7bdb78 0xffffffff m_POWER7 0;
  mk_opcode "mdoio" 0x7fbdeb78 0xffffffff m_POWER7 0;
  mk_opcode "mdoom" 0x7fdef378 0xffffffff m_POWER7 0;
  mk_opcode "mr" (m_XRC 31 444 0) m_X_MASK m_COM 0;
  mk_opcode "or" (m_XRC 31 444 0) m_X_MASK m_COM 0;
  mk_opcode "mr." (m_XRC 31 444 1) m_X_MASK m_COM 0;
  mk_opcode "or." (m_XRC 31 444 1) m_X_MASK m_COM 0;
  mk_opcode "mtexisr" (m_XSPR 31 451 64) m_XSPR_MASK m_PPC403 0;
  mk_opcode "mtexier" (m_XSPR 31 451 66) m_XSPR_MASK m_PPC403 0;
  mk_opcode "mtbr0" (m_XSPR 31 451 128) m_XSPR_MASK m_PPC403 0;
  mk_opcode "mtbr1" (m_XSPR 31 451 129) m_XSPR_MASK m_PPC403 0;
  mk_opcode "mtbr2" (m_XSPR 31 451 130) m_XSPR_MASK m_PPC403 0;
  mk_opcode "mtbr3" (m_XSPR 31 451 131) m_XSPR_MASK m_PPC403 0;
  mk_opcode "mtbr4" (m_XSPR 31 451 132) m_XSPR_MASK m_PPC403 0;
  mk_opcode "mtbr5" (m_XSPR 31 451 133) m_XSPR_MASK m_PPC403 0;
  mk_opcode "mtbr6" (m_XSPR 31 451 134) m_XSPR_MASK m_PPC403 0;
  mk_opcode "mtbr7" (m_XSPR 31 451 135) m_XSPR_MASK m_PPC403 0;
  mk_opcode "mtbear" (m_XSPR 31 451 144) m_XSPR_MASK m_PPC403 0;
  mk_opcode "mtbesr" (m_XSPR 31 451 145) m_XSPR_MASK m_PPC403 0;
  mk_opcode "mtiocr" (m_XSPR 31 451 160) m_XSPR_MASK m_PPC403 0;
  mk_opcode "mtdmacr0" (m_XSPR 31 451 192) m_XSPR_MASK m_PPC403 0;
  mk_opcode "mtdmact0" (m_XSPR 31 451 193) m_XSPR_MASK m_PPC403 0].
(* qtlib/ppc-opc.c:6108-6214 *)
Definition opcodes_23 : list opcode := [
  mk_opcode "mtdmada0" (m_XSPR 31 451 194) m_XSPR_MASK m_PPC403 0;
  mk_opcode "mtdmasa0" (m_XSPR 31 451 195) m_XSPR_MASK m_PPC403 0;
  mk_opcode "mtdmacc0" (m_XSPR 31 451 196) m_XSPR_MASK m_PPC403 0;
  mk_opcode "mtdmacr1" (m_XSPR 31 451 200) m_XSPR_MASK m_PPC403 0;
  mk_opcode "mtdmact1" (m_XSPR 31 451 201) m_XSPR_MASK m_PPC403 0;
  mk_opcode "mtdmada1" (m_XSPR 31 451 202) m_XSPR_MASK m_PPC403 0;
  mk_opcode "mtdmasa1" (m_XSPR 31 451 203) m_XSPR_MASK m_PPC403 0;
  mk_opcode "mtdmacc1" (m_XSPR 31 451 204) m_XSPR_MASK m_PPC403 0;
  mk_opcode "mtdmacr2" (m_XSPR 31 451 208) m_XSPR_MASK m_PPC403 0;
  mk_opcode "mtdmact2" (m_XSPR 31 451 209) m_XSPR_MASK m_PPC403 0;
  mk_opcode "mtdmada2" (m_XSPR 31 451 210) m_XSPR_MASK m_PPC403 0;
  mk_opcode "mtdmasa2" (m_XSPR 31 451 211) m_XSPR_MASK m_PPC403 0;
  mk_opcode "mtdmacc2" (m_XSPR 31 451 212) m_XSPR_MASK m_PPC403 0;
  mk_opcode "mtdmacr3" (m_XSPR 31 451 216) m_XSPR_MASK m_PPC403 0;
  mk_opcode "mtdmact3" (m_XSPR 31 451 217) m_XSPR_MASK m_PPC403 0;
  mk_opcode "mtdmada3" (m_XSPR 31 451 218) m_XSPR_MASK m_PPC403 0;
  mk_opcode "mtdmasa3" (m_XSPR 31 451 219) m_XSPR_MASK m_PPC403 0;
  mk_opcode "mtdmacc3" (m_XSPR 31 451 220) m_XSPR_MASK m_PPC403 0;
  mk_opcode "mtdmasr" (m_XSPR 31 451 224) m_XSPR_MASK m_PPC403 0;
  mk_opcode "mtdcr" (m_X 31 451) m_X_MASK (((m_PPC403 .| m_BOOKE) .| m_PPCA2) .| m_PPC476) (m_E500 .| m_TITAN);
  mk_opcode "mtdcr." (m_XRC 31 451 1) m_X_MASK m_PPCA2 0;
  mk_opcode "stvexwx" (m_X 31 453) m_X_MASK m_E6500 0;
  mk_opcode "dccci" (m_X 31 454) m_XRT_MASK ((((m_PPC403 .| m_PPC440) .| m_PPC476) .| m_TITAN) .| m_PPCA2) 0;
  mk_opcode "dci" (m_X 31 454) m_XRARB_MASK (m_PPCA2 .| m_PPC476) 0;
  mk_opcode "divdu" (m_XO 31 457 0 0) m_XO_MASK m_PPC64 0;
  mk_opcode "divdu." (m_XO 31 457 0 1) m_XO_MASK m_PPC64 0;
  mk_opcode "divwu" (m_XO 31 459 0 0) m_XO_MASK m_PPC 0;
  mk_opcode "divwu." (m_XO 31 459 0 1) m_XO_MASK m_PPC 0;
  mk_opcode "mtpmr" (m_X 31 462) m_X_MASK (m_PPCPMR .| m_PPCE300) 0;
  mk_opcode "mttmr" (m_X 31 494) m_X_MASK m_PPCTMR 0;
  mk_opcode "slbieg" (m_X 31 466) m_XRA_MASK m_POWER9 0;
  mk_opcode "mtmq" (m_XSPR 31 467 0) m_XSPR_MASK m_M601 0;
  mk_opcode "mtxer" (m_XSPR 31 467 1) m_XSPR_MASK m_COM 0;
  mk_opcode "mtlr" (m_XSPR 31 467 8) m_XSPR_MASK m_COM 0;
  mk_opcode "mtctr" (m_XSPR 31 467 9) m_XSPR_MASK m_COM 0;
  mk_opcode "mtdscr" (m_XSPR 31 467 17) m_XSPR_MASK m_POWER6 0;
  mk_opcode "mttid" (m_XSPR 31 467 17) m_XSPR_MASK m_POWER 0;
  mk_opcode "mtdsisr" (m_XSPR 31 467 18) m_XSPR_MASK m_COM m_TITAN;
  mk_opcode "mtdar" (m_XSPR 31 467 19) m_XSPR_MASK m_COM m_TITAN;
  mk_opcode "mtrtcu" (m_XSPR 31 467 20) m_XSPR_MASK m_COM m_TITAN;
  mk_opcode "mtrtcl" (m_XSPR 31 467 21) m_XSPR_MASK m_COM m_TITAN;
  mk_opcode "mtdec" (m_XSPR 31 467 22) m_XSPR_MASK m_COM 0;
  mk_opcode "mtsdr0" (m_XSPR 31 467 24) m_XSPR_MASK m_POWER 0;
  mk_opcode "mtsdr1" (m_XSPR 31 467 25) m_XSPR_MASK m_COM m_TITAN;
  mk_opcode "mtsrr0" (m_XSPR 31 467 26) m_XSPR_MASK m_COM 0;
  mk_opcode "mtsrr1" (m_XSPR 31 467 27) m_XSPR_MASK m_COM 0;
  mk_opcode "mtcfar" (m_XSPR 31 467 28) m_XSPR_MASK m_POWER6 0;
  mk_opcode "mtpid" (m_XSPR 31 467 48) m_XSPR_MASK m_BOOKE 0;
  mk_opcode "mtdecar" (m_XSPR 31 467 54) m_XSPR_MASK m_BOOKE 0;
  mk_opcode "mtcsrr0" (m_XSPR 31 467 58) m_XSPR_MASK m_BOOKE 0;
  mk_opcode "mtcsrr1" (m_XSPR 31 467 59) m_XSPR_MASK m_BOOKE 0;
  mk_opcode "mtdear" (m_XSPR 31 467 61) m_XSPR_MASK m_BOOKE 0;
  mk_opcode "mtesr" (m_XSPR 31 467 62) m_XSPR_MASK m_BOOKE 0;
  mk_opcode "mtivpr" (m_XSPR 31 467 63) m_XSPR_MASK m_BOOKE 0;
  mk_opcode "mtcmpa" (m_XSPR 31 467 144) m_XSPR_MASK m_PPC860 0;
  mk_opcode "mtcmpb" (m_XSPR 31 467 145) m_XSPR_MASK m_PPC860 0;
  mk_opcode "mtcmpc" (m_XSPR 31 467 146) m_XSPR_MASK m_PPC860 0;
  mk_opcode "mtcmpd" (m_XSPR 31 467 147) m_XSPR_MASK m_PPC860 0;
  mk_opcode "mticr" (m_XSPR 31 467 148) m_XSPR_MASK m_PPC860 0;
  mk_opcode "mtder" (m_XSPR 31 467 149) m_XSPR_MASK m_PPC860 0;
  mk_opcode "mtcounta" (m_XSPR 31 467 150) m_XSPR_MASK m_PPC860 0;
  mk_opcode "mtcountb" (m_XSPR 31 467 151) m_XSPR_MASK m_PPC860 0;
  mk_opcode "mtctrl" (m_XSPR 31 467 152) m_XSPR_MASK m_POWER4 0;
  mk_opcode "mtcmpe" (m_XSPR 31 467 152) m_XSPR_MASK m_PPC860 0;
  mk_opcode "mtcmpf" (m_XSPR 31 467 153) m_XSPR_MASK m_PPC860 0;
  mk_opcode "mtcmpg" (m_XSPR 31 467 154) m_XSPR_MASK m_PPC860 0;
  mk_opcode "mtcmph" (m_XSPR 31 467 155) m_XSPR_MASK m_PPC860 0;
  mk_opcode "mtlctrl1" (m_XSPR 31 467 156) m_XSPR_MASK m_PPC860 0;
  mk_opcode "mtlctrl2" (m_XSPR 31 467 157) m_XSPR_MASK m_PPC860 0;
  mk_opcode "mtictrl" (m_XSPR 31 467 158) m_XSPR_MASK m_PPC860 0;
  mk_opcode "mtbar" (m_XSPR 31 467 159) m_XSPR_MASK m_PPC860 0;
  mk_opcode "mtvrsave" (m_XSPR 31 467 256) m_XSPR_MASK m_PPCVEC 0;
  mk_opcode "mtusprg0" (m_XSPR 31 467 256) m_XSPR_MASK m_BOOKE 0;
  mk_opcode "mtsprg" (m_XSPR 31 467 256) m_XSPRG_MASK m_PPC 0;
  mk_opcode "mtsprg0" (m_XSPR 31 467 272) m_XSPR_MASK m_PPC 0;
  mk_opcode "mtsprg1" (m_XSPR 31 467 273) m_XSPR_MASK m_PPC 0;
  mk_opcode "mtsprg2" (m_XSPR 31 467 274) m_XSPR_MASK m_PPC 0;
  mk_opcode "mtsprg3" (m_XSPR 31 467 275) m_XSPR_MASK m_PPC 0;
  mk_opcode "mtsprg4" (m_XSPR 31 467 276) m_XSPR_MASK (m_PPC405 .| m_BOOKE) 0;
  mk_opcode "mtsprg5" (m_XSPR 31 467 277) m_XSPR_MASK (m_PPC405 .| m_BOOKE) 0;
  mk_opcode "mtsprg6" (m_XSPR 31 467 278) m_XSPR_MASK (m_PPC405 .| m_BOOKE) 0;
  mk_opcode "mtsprg7" (m_XSPR 31 467 279) m_XSPR_MASK (m_PPC405 .| m_BOOKE) 0;
  mk_opcode "mtasr" (m_XSPR 31 467 280) m_XSPR_MASK m_PPC64 0;
  mk_opcode "mtear" (m_XSPR 31 467 282) m_XSPR_MASK m_PPC m_TITAN;
  mk_opcode "mttbl" (m_XSPR 31 467 284) m_XSPR_MASK m_PPC 0;
  mk_opcode "mttbu" (m_XSPR 31 467 285) m_XSPR_MASK m_PPC 0;
  mk_opcode "mtdbsr" (m_XSPR 31 467 304) m_XSPR_MASK m_BOOKE 0;
  mk_opcode "mtdbcr0" (m_XSPR 31 467 308) m_XSPR_MASK m_BOOKE 0;
  mk_opcode "mtdbcr1" (m_XSPR 31 467 309) m_XSPR_MASK m_BOOKE 0;
  mk_opcode "mtdbcr2" (m_XSPR 31 467 310) m_XSPR_MASK m_BOOKE 0;
  mk_opcode "mtiac1" (m_XSPR 31 467 312) m_XSPR_MASK m_BOOKE 0;
  mk_opcode "mtiac2" (m_XSPR 31 467 313) m_XSPR_MASK m_BOOKE 0;
  mk_opcode "mtiac3" (m_XSPR 31 467 314) m_XSPR_MASK m_BOOKE 0;
  mk_opcode "mtiac4" (m_XSPR 31 467 315) m_XSPR_MASK m_BOOKE 0;
  mk_opcode "mtdac1" (m_XSPR 31 467 316) m_XSPR_MASK m_BOOKE 0;
  mk_opcode "mtdac2" (m_XSPR 31 467 317) m_XSPR_MASK m_BOOKE 0;
  mk_opcode "mtdvc1" (m_XSPR 31 467 318) m_XSPR_MASK m_BOOKE 0;
  mk_opcode "mtdvc2" (m_XSPR 31 467 319) m_XSPR_MASK m_BOOKE 0;
  mk_opcode "mttsr" (m_XSPR 31 467 336) m_XSPR_MASK m_BOOKE 0;
  mk_opcode "mttcr" (m_XSPR 31 467 340) m_XSPR_MASK m_BOOKE 0].
(* qtlib/ppc-opc.c:6215-6314 *)
Definition opcodes_24 : list opcode := [
  mk_opcode "mtivor0" (m_XSPR 31 467 400) m_XSPR_MASK m_BOOKE 0;
  mk_opcode "mtivor1" (m_XSPR 31 467 401) m_XSPR_MASK m_BOOKE 0;
  mk_opcode "mtivor2" (m_XSPR 31 467 402) m_XSPR_MASK m_BOOKE 0;
  mk_opcode "mtivor3" (m_XSPR 31 467 403) m_XSPR_MASK m_BOOKE 0;
  mk_opcode "mtivor4" (m_XSPR 31 467 404) m_XSPR_MASK m_BOOKE 0;
  mk_opcode "mtivor5" (m_XSPR 31 467 405) m_XSPR_MASK m_BOOKE 0;
  mk_opcode "mtivor6" (m_XSPR 31 467 406) m_XSPR_MASK m_BOOKE 0;
  mk_opcode "mtivor7" (m_XSPR 31 467 407) m_XSPR_MASK m_BOOKE 0;
  mk_opcode "mtivor8" (m_XSPR 31 467 408) m_XSPR_MASK m_BOOKE 0;
  mk_opcode "mtivor9" (m_XSPR 31 467 409) m_XSPR_MASK m_BOOKE 0;
  mk_opcode "mtivor10" (m_XSPR 31 467 410) m_XSPR_MASK m_BOOKE 0;
  mk_opcode "mtivor11" (m_XSPR 31 467 411) m_XSPR_MASK m_BOOKE 0;
  mk_opcode "mtivor12" (m_XSPR 31 467 412) m_XSPR_MASK m_BOOKE 0;
  mk_opcode "mtivor13" (m_XSPR 31 467 413) m_XSPR_MASK m_BOOKE 0;
  mk_opcode "mtivor14" (m_XSPR 31 467 414) m_XSPR_MASK m_BOOKE 0;
  mk_opcode "mtivor15" (m_XSPR 31 467 415) m_XSPR_MASK m_BOOKE 0;
  mk_opcode "mtspefscr" (m_XSPR 31 467 512) m_XSPR_MASK m_PPCSPE 0;
  mk_opcode "mtbbear" (m_XSPR 31 467 513) m_XSPR_MASK m_PPCBRLK 0;
  mk_opcode "mtbbtar" (m_XSPR 31 467 514) m_XSPR_MASK m_PPCBRLK 0;
  mk_opcode "mtivor32" (m_XSPR 31 467 528) m_XSPR_MASK (m_PPCSPE .| m_E6500) 0;
  mk_opcode "mtivor33" (m_XSPR 31 467 529) m_XSPR_MASK (m_PPCSPE .| m_E6500) 0;
  mk_opcode "mtivor34" (m_XSPR 31 467 530) m_XSPR_MASK m_PPCSPE 0;
  mk_opcode "mtivor35" (m_XSPR 31 467 531) m_XSPR_MASK m_PPCPMR 0;
  mk_opcode "mtibatu" (m_XSPR 31 467 528) m_XSPRBAT_MASK m_PPC m_TITAN;
  mk_opcode "mtibatl" (m_XSPR 31 467 529) m_XSPRBAT_MASK m_PPC m_TITAN;
  mk_opcode "mtdbatu" (m_XSPR 31 467 536) m_XSPRBAT_MASK m_PPC m_TITAN;
  mk_opcode "mtdbatl" (m_XSPR 31 467 537) m_XSPRBAT_MASK m_PPC m_TITAN;
  mk_opcode "mtmcsrr0" (m_XSPR 31 467 570) m_XSPR_MASK m_PPCRFMCI 0;
  mk_opcode "mtmcsrr1" (m_XSPR 31 467 571) m_XSPR_MASK m_PPCRFMCI 0;
  mk_opcode "mtmcsr" (m_XSPR 31 467 572) m_XSPR_MASK m_PPCRFMCI 0;
  mk_opcode "mtupmc1" (m_XSPR 31 467 771) m_XSPR_MASK m_POWER9 0;
  mk_opcode "mtupmc2" (m_XSPR 31 467 772) m_XSPR_MASK m_POWER9 0;
  mk_opcode "mtupmc3" (m_XSPR 31 467 773) m_XSPR_MASK m_POWER9 0;
  mk_opcode "mtupmc4" (m_XSPR 31 467 774) m_XSPR_MASK m_POWER9 0;
  mk_opcode "mtupmc5" (m_XSPR 31 467 775) m_XSPR_MASK m_POWER9 0;
  mk_opcode "mtupmc6" (m_XSPR 31 467 776) m_XSPR_MASK m_POWER9 0;
  mk_opcode "mtivndx" (m_XSPR 31 467 880) m_XSPR_MASK m_TITAN 0;
  mk_opcode "mtdvndx" (m_XSPR 31 467 881) m_XSPR_MASK m_TITAN 0;
  mk_opcode "mtivlim" (m_XSPR 31 467 882) m_XSPR_MASK m_TITAN 0;
  mk_opcode "mtdvlim" (m_XSPR 31 467 883) m_XSPR_MASK m_TITAN 0;
  mk_opcode "mtclcsr" (m_XSPR 31 467 884) m_XSPR_MASK m_TITAN 0;
  mk_opcode "mtccr1" (m_XSPR 31 467 888) m_XSPR_MASK m_TITAN 0;
  mk_opcode "mtppr" (m_XSPR 31 467 896) m_XSPR_MASK m_POWER7 0;
  mk_opcode "mtppr32" (m_XSPR 31 467 898) m_XSPR_MASK m_POWER7 0;
  mk_opcode "mtgqr" (m_XSPR 31 467 912) m_XSPRGQR_MASK m_PPCPS 0;
  mk_opcode "mthid2" (m_XSPR 31 467 920) m_XSPR_MASK m_GEKKO 0;
  mk_opcode "mtwpar" (m_XSPR 31 467 921) m_XSPR_MASK m_GEKKO 0;
  mk_opcode "mtdmau" (m_XSPR 31 467 922) m_XSPR_MASK m_GEKKO 0;
  mk_opcode "mtdmal" (m_XSPR 31 467 923) m_XSPR_MASK m_GEKKO 0;
  mk_opcode "mtummcr0" (m_XSPR 31 467 936) m_XSPR_MASK m_PPC750 0;
  mk_opcode "mtupmc1" (m_XSPR 31 467 937) m_XSPR_MASK m_PPC750 0;
  mk_opcode "mtupmc2" (m_XSPR 31 467 938) m_XSPR_MASK m_PPC750 0;
  mk_opcode "mtusia" (m_XSPR 31 467 939) m_XSPR_MASK m_PPC750 0;
  mk_opcode "mtummcr1" (m_XSPR 31 467 940) m_XSPR_MASK m_PPC750 0;
  mk_opcode "mtupmc3" (m_XSPR 31 467 941) m_XSPR_MASK m_PPC750 0;
  mk_opcode "mtupmc4" (m_XSPR 31 467 942) m_XSPR_MASK m_PPC750 0;
  mk_opcode "mtzpr" (m_XSPR 31 467 944) m_XSPR_MASK m_PPC403 0;
  mk_opcode "mtpid" (m_XSPR 31 467 945) m_XSPR_MASK m_PPC403 0;
  mk_opcode "mtrmmucr" (m_XSPR 31 467 946) m_XSPR_MASK m_TITAN 0;
  mk_opcode "mtccr0" (m_XSPR 31 467 947) m_XSPR_MASK (m_PPC405 .| m_TITAN) 0;
  mk_opcode "mtiac3" (m_XSPR 31 467 948) m_XSPR_MASK m_PPC405 0;
  mk_opcode "mtiac4" (m_XSPR 31 467 949) m_XSPR_MASK m_PPC405 0;
  mk_opcode "mtdvc1" (m_XSPR 31 467 950) m_XSPR_MASK m_PPC405 0;
  mk_opcode "mtdvc2" (m_XSPR 31 467 951) m_XSPR_MASK m_PPC405 0;
  mk_opcode "mtmmcr0" (m_XSPR 31 467 952) m_XSPR_MASK m_PPC750 0;
  mk_opcode "mtpmc1" (m_XSPR 31 467 953) m_XSPR_MASK m_PPC750 0;
  mk_opcode "mtsgr" (m_XSPR 31 467 953) m_XSPR_MASK m_PPC403 0;
  mk_opcode "mtdcwr" (m_XSPR 31 467 954) m_XSPR_MASK m_PPC403 0;
  mk_opcode "mtpmc2" (m_XSPR 31 467 954) m_XSPR_MASK m_PPC750 0;
  mk_opcode "mtsia" (m_XSPR 31 467 955) m_XSPR_MASK m_PPC750 0;
  mk_opcode "mtsler" (m_XSPR 31 467 955) m_XSPR_MASK m_PPC405 0;
  mk_opcode "mtmmcr1" (m_XSPR 31 467 956) m_XSPR_MASK m_PPC750 0;
  mk_opcode "mtsu0r" (m_XSPR 31 467 956) m_XSPR_MASK m_PPC405 0;
  mk_opcode "mtdbcr1" (m_XSPR 31 467 957) m_XSPR_MASK m_PPC405 0;
  mk_opcode "mtpmc3" (m_XSPR 31 467 957) m_XSPR_MASK m_PPC750 0;
  mk_opcode "mtpmc4" (m_XSPR 31 467 958) m_XSPR_MASK m_PPC750 0;
  mk_opcode "mticdbdr" (m_XSPR 31 467 979) m_XSPR_MASK m_PPC403 0;
  mk_opcode "mtesr" (m_XSPR 31 467 980) m_XSPR_MASK m_PPC403 0;
  mk_opcode "mtdear" (m_XSPR 31 467 981) m_XSPR_MASK m_PPC403 0;
  mk_opcode "mtevpr" (m_XSPR 31 467 982) m_XSPR_MASK m_PPC403 0;
  mk_opcode "mtcdbcr" (m_XSPR 31 467 983) m_XSPR_MASK m_PPC403 0;
  mk_opcode "mttsr" (m_XSPR 31 467 984) m_XSPR_MASK m_PPC403 0;
  mk_opcode "mttcr" (m_XSPR 31 467 986) m_XSPR_MASK m_PPC403 0;
  mk_opcode "mtpit" (m_XSPR 31 467 987) m_XSPR_MASK m_PPC403 0;
  mk_opcode "mttbhi" (m_XSPR 31 467 988) m_XSPR_MASK m_PPC403 0;
  mk_opcode "mttblo" (m_XSPR 31 467 989) m_XSPR_MASK m_PPC403 0;
  mk_opcode "mtsrr2" (m_XSPR 31 467 990) m_XSPR_MASK m_PPC403 0;
  mk_opcode "mtsrr3" (m_XSPR 31 467 991) m_XSPR_MASK m_PPC403 0;
  mk_opcode "mtdbsr" (m_XSPR 31 467 1008) m_XSPR_MASK m_PPC403 0;
  mk_opcode "mthid0" (m_XSPR 31 467 1008) m_XSPR_MASK m_GEKKO 0;
  mk_opcode "mthid1" (m_XSPR 31 467 1009) m_XSPR_MASK m_GEKKO 0;
  mk_opcode "mtdbcr0" (m_XSPR 31 467 1010) m_XSPR_MASK m_PPC405 0;
  mk_opcode "mtiabr" (m_XSPR 31 467 1010) m_XSPR_MASK m_GEKKO 0;
  mk_opcode "mthid4" (m_XSPR 31 467 1011) m_XSPR_MASK m_BROADWAY 0;
  mk_opcode "mtdbdr" (m_XSPR 31 467 1011) m_XSPR_MASK m_TITAN 0;
  mk_opcode "mtiac1" (m_XSPR 31 467 1012) m_XSPR_MASK m_PPC403 0;
  mk_opcode "mtiac2" (m_XSPR 31 467 1013) m_XSPR_MASK m_PPC403 0;
  mk_opcode "mtdabr" (m_XSPR 31 467 1013) m_XSPR_MASK m_PPC750 0;
  mk_opcode "mtdac1" (m_XSPR 31 467 1014) m_XSPR_MASK m_PPC403 0;
  mk_opcode "mtdac2" (m_XSPR 31 467 1015) m_XSPR_MASK m_PPC403 0].
(* qtlib/ppc-opc.c:6315-6462 *)
Definition opcodes_25 : list opcode := [
  mk_opcode "mtl2cr" (m_XSPR 31 467 1017) m_XSPR_MASK m_PPC750 0;
  mk_opcode "mtdccr" (m_XSPR 31 467 1018) m_XSPR_MASK m_PPC403 0;
  mk_opcode "mticcr" (m_XSPR 31 467 1019) m_XSPR_MASK m_PPC403 0;
  mk_opcode "mtictc" (m_XSPR 31 467 1019) m_XSPR_MASK m_PPC750 0;
  mk_opcode "mtpbl1" (m_XSPR 31 467 1020) m_XSPR_MASK m_PPC403 0;
  mk_opcode "mtthrm1" (m_XSPR 31 467 1020) m_XSPR_MASK m_PPC750 0;
  mk_opcode "mtpbu1" (m_XSPR 31 467 1021) m_XSPR_MASK m_PPC403 0;
  mk_opcode "mtthrm2" (m_XSPR 31 467 1021) m_XSPR_MASK m_PPC750 0;
  mk_opcode "mtpbl2" (m_XSPR 31 467 1022) m_XSPR_MASK m_PPC403 0;
  mk_opcode "mtthrm3" (m_XSPR 31 467 1022) m_XSPR_MASK m_PPC750 0;
  mk_opcode "mtpbu2" (m_XSPR 31 467 1023) m_XSPR_MASK m_PPC403 0;
  mk_opcode "mtspr" (m_X 31 467) m_X_MASK m_COM 0;
  mk_opcode "dcbi" (m_X 31 470) m_XRT_MASK m_PPC 0;
  mk_opcode "nand" (m_XRC 31 476 0) m_X_MASK m_COM 0;
  mk_opcode "nand." (m_XRC 31 476 1) m_X_MASK m_COM 0;
  mk_opcode "dsn" (m_X 31 483) m_XRT_MASK m_E500MC 0;
  mk_opcode "dcread" (m_X 31 486) m_X_MASK (m_PPC403 .| m_PPC440) m_PPCA2;
  mk_opcode "icbtls" (m_X 31 486) m_X_MASK ((m_PPCCHLK .| m_PPC476) .| m_TITAN) 0;
  mk_opcode "stvxl" (m_X 31 487) m_X_MASK m_PPCVEC 0;
  mk_opcode "nabs" (m_XO 31 488 0 0) m_XORB_MASK m_M601 0;
  mk_opcode "nabs." (m_XO 31 488 0 1) m_XORB_MASK m_M601 0;
  mk_opcode "divd" (m_XO 31 489 0 0) m_XO_MASK m_PPC64 0;
  mk_opcode "divd." (m_XO 31 489 0 1) m_XO_MASK m_PPC64 0;
  mk_opcode "divw" (m_XO 31 491 0 0) m_XO_MASK m_PPC 0;
  mk_opcode "divw." (m_XO 31 491 0 1) m_XO_MASK m_PPC 0;
  mk_opcode "icbtlse" (m_X 31 494) m_X_MASK m_PPCCHLK m_E500MC;
  mk_opcode "slbia" (m_X 31 498) 0xff1fffff m_POWER6 0;
  mk_opcode "slbia" (m_X 31 498) 0xffffffff m_PPC64 m_POWER6;
  mk_opcode "cli" (m_X 31 502) m_XRB_MASK m_POWER 0;
  mk_opcode "popcntd" (m_X 31 506) m_XRB_MASK (m_POWER7 .| m_PPCA2) 0;
  mk_opcode "cmpb" (m_X 31 508) m_X_MASK ((m_POWER6 .| m_PPCA2) .| m_PPC476) 0;
  mk_opcode "mcrxr" (m_X 31 512) m_XBFRARB_MASK m_COM m_POWER7;
  mk_opcode "lbdcbx" (m_X 31 514) m_X_MASK m_E200Z4 0;
  mk_opcode "lbdx" (m_X 31 515) m_X_MASK (m_E500MC .| m_E200Z4) 0;
  mk_opcode "bblels" (m_X 31 518) m_X_MASK m_PPCBRLK 0;
  mk_opcode "lvlx" (m_X 31 519) m_X_MASK m_CELL 0;
  mk_opcode "lbfcmux" (m_APU 31 519 0) m_APU_MASK m_PPC405 0;
  mk_opcode "subfco" (m_XO 31 8 1 0) m_XO_MASK m_PPCCOM 0;
  mk_opcode "sfo" (m_XO 31 8 1 0) m_XO_MASK m_PWRCOM 0;
  mk_opcode "subco" (m_XO 31 8 1 0) m_XO_MASK m_PPCCOM 0;
  mk_opcode "subfco." (m_XO 31 8 1 1) m_XO_MASK m_PPCCOM 0;
  mk_opcode "sfo." (m_XO 31 8 1 1) m_XO_MASK m_PWRCOM 0;
  mk_opcode "subco." (m_XO 31 8 1 1) m_XO_MASK m_PPCCOM 0;
  mk_opcode "addco" (m_XO 31 10 1 0) m_XO_MASK m_PPCCOM 0;
  mk_opcode "ao" (m_XO 31 10 1 0) m_XO_MASK m_PWRCOM 0;
  mk_opcode "addco." (m_XO 31 10 1 1) m_XO_MASK m_PPCCOM 0;
  mk_opcode "ao." (m_XO 31 10 1 1) m_XO_MASK m_PWRCOM 0;
  mk_opcode "lxsspx" (m_X 31 524) m_XX1_MASK m_PPCVSX2 0;
  mk_opcode "clcs" (m_X 31 531) m_XRB_MASK m_M601 0;
  mk_opcode "ldbrx" (m_X 31 532) m_X_MASK ((m_CELL .| m_POWER7) .| m_PPCA2) 0;
  mk_opcode "lswx" (m_X 31 533) m_X_MASK m_PPCCOM (m_E500 .| m_E500MC);
  mk_opcode "lsx" (m_X 31 533) m_X_MASK m_PWRCOM 0;
  mk_opcode "lwbrx" (m_X 31 534) m_X_MASK m_PPCCOM 0;
  mk_opcode "lbrx" (m_X 31 534) m_X_MASK m_PWRCOM 0;
  mk_opcode "lfsx" (m_X 31 535) m_X_MASK m_COM m_PPCEFS;
  mk_opcode "srw" (m_XRC 31 536 0) m_X_MASK m_PPCCOM 0;
  mk_opcode "sr" (m_XRC 31 536 0) m_X_MASK m_PWRCOM 0;
  mk_opcode "srw." (m_XRC 31 536 1) m_X_MASK m_PPCCOM 0;
  mk_opcode "sr." (m_XRC 31 536 1) m_X_MASK m_PWRCOM 0;
  mk_opcode "rrib" (m_XRC 31 537 0) m_X_MASK m_M601 0;
  mk_opcode "rrib." (m_XRC 31 537 1) m_X_MASK m_M601 0;
  mk_opcode "cnttzw" (m_XRC 31 538 0) m_XRB_MASK m_POWER9 0;
  mk_opcode "cnttzw." (m_XRC 31 538 1) m_XRB_MASK m_POWER9 0;
  mk_opcode "srd" (m_XRC 31 539 0) m_X_MASK m_PPC64 0;
  mk_opcode "srd." (m_XRC 31 539 1) m_X_MASK m_PPC64 0;
  mk_opcode "maskir" (m_XRC 31 541 0) m_X_MASK m_M601 0;
  mk_opcode "maskir." (m_XRC 31 541 1) m_X_MASK m_M601 0;
  mk_opcode "lhdcbx" (m_X 31 546) m_X_MASK m_E200Z4 0;
  mk_opcode "lhdx" (m_X 31 547) m_X_MASK (m_E500MC .| m_E200Z4) 0;
  mk_opcode "lvtrx" (m_X 31 549) m_X_MASK m_E6500 0;
  mk_opcode "bbelr" (m_X 31 550) m_X_MASK m_PPCBRLK 0;
  mk_opcode "lvrx" (m_X 31 551) m_X_MASK m_CELL 0;
  mk_opcode "lhfcmux" (m_APU 31 551 0) m_APU_MASK m_PPC405 0;
  mk_opcode "subfo" (m_XO 31 40 1 0) m_XO_MASK m_PPC 0;
  mk_opcode "subo" (m_XO 31 40 1 0) m_XO_MASK m_PPC 0;
  mk_opcode "subfo." (m_XO 31 40 1 1) m_XO_MASK m_PPC 0;
  mk_opcode "subo." (m_XO 31 40 1 1) m_XO_MASK m_PPC 0;
  mk_opcode "tlbsync" (m_X 31 566) 0xffffffff m_PPC 0;
  mk_opcode "lfsux" (m_X 31 567) m_X_MASK m_COM m_PPCEFS;
  mk_opcode "cnttzd" (m_XRC 31 570 0) m_XRB_MASK m_POWER9 0;
  mk_opcode "cnttzd." (m_XRC 31 570 1) m_XRB_MASK m_POWER9 0;
  mk_opcode "mcrxrx" (m_X 31 576) m_XBFRARB_MASK m_POWER9 0;
  mk_opcode "lwdcbx" (m_X 31 578) m_X_MASK m_E200Z4 0;
  mk_opcode "lwdx" (m_X 31 579) m_X_MASK (m_E500MC .| m_E200Z4) 0;
  mk_opcode "lvtlx" (m_X 31 581) m_X_MASK m_E6500 0;
  mk_opcode "lwat" (m_X 31 582) m_X_MASK m_POWER9 0;
  mk_opcode "lwfcmux" (m_APU 31 583 0) m_APU_MASK m_PPC405 0;
  mk_opcode "lxsdx" (m_X 31 588) m_XX1_MASK m_PPCVSX 0;
  mk_opcode "mfsr" (m_X 31 595) (m_XRB_MASK .| (1 .<< 20)) m_COM m_NON32;
  mk_opcode "lswi" (m_X 31 597) m_X_MASK m_PPCCOM (m_E500 .| m_E500MC);
  mk_opcode "lsi" (m_X 31 597) m_X_MASK m_PWRCOM 0;
  mk_opcode "hwsync" (m_XSYNC 31 598 0) 0xffffffff m_POWER4 (m_BOOKE .| m_PPC476);
  mk_opcode "lwsync" (m_XSYNC 31 598 1) 0xffffffff m_PPC m_E500;
  mk_opcode "ptesync" (m_XSYNC 31 598 2) 0xffffffff m_PPC64 0;
  mk_opcode "sync" (m_X 31 598) m_XSYNCLE_MASK m_E6500 0;
  mk_opcode "sync" (m_X 31 598) m_XSYNC_MASK m_PPCCOM (m_BOOKE .| m_PPC476);
  mk_opcode "msync" (m_X 31 598) 0xffffffff ((m_BOOKE .| m_PPCA2) .| m_PPC476) 0;
  mk_opcode "sync" (m_X 31 598) 0xffffffff (m_BOOKE .| m_PPC476) m_E6500;
  mk_opcode "lwsync" (m_X 31 598) 0xffffffff m_E500 0;
  mk_opcode "dcs" (m_X 31 598) 0xffffffff m_PWRCOM 0].
(* qtlib/ppc-opc.c:6464-6619 *)
Definition opcodes_26 : list opcode := [
  mk_opcode "lfdx" (m_X 31 599) m_X_MASK m_COM m_PPCEFS;
  mk_opcode "mffgpr" (m_XRC 31 607 0) m_XRA_MASK m_POWER6 m_POWER7;
  mk_opcode "lfdepx" (m_X 31 607) m_X_MASK (m_E500MC .| m_PPCA2) 0;
  mk_opcode "lddx" (m_X 31 611) m_X_MASK m_E500MC 0;
  mk_opcode "lvswx" (m_X 31 613) m_X_MASK m_E6500 0;
  mk_opcode "ldat" (m_X 31 614) m_X_MASK m_POWER9 0;
  mk_opcode "lqfcmux" (m_APU 31 615 0) m_APU_MASK m_PPC405 0;
  mk_opcode "nego" (m_XO 31 104 1 0) m_XORB_MASK m_COM 0;
  mk_opcode "nego." (m_XO 31 104 1 1) m_XORB_MASK m_COM 0;
  mk_opcode "mulo" (m_XO 31 107 1 0) m_XO_MASK m_M601 0;
  mk_opcode "mulo." (m_XO 31 107 1 1) m_XO_MASK m_M601 0;
  mk_opcode "mfsri" (m_X 31 627) m_X_MASK m_M601 0;
  mk_opcode "dclst" (m_X 31 630) m_XRB_MASK m_M601 0;
  mk_opcode "lfdux" (m_X 31 631) m_X_MASK m_COM m_PPCEFS;
  mk_opcode "stbdcbx" (m_X 31 642) m_X_MASK m_E200Z4 0;
  mk_opcode "stbdx" (m_X 31 643) m_X_MASK (m_E500MC .| m_E200Z4) 0;
  mk_opcode "stvlx" (m_X 31 647) m_X_MASK m_CELL 0;
  mk_opcode "stbfcmux" (m_APU 31 647 0) m_APU_MASK m_PPC405 0;
  mk_opcode "stxsspx" (m_X 31 652) m_XX1_MASK m_PPCVSX2 0;
  mk_opcode "tbegin." (m_XRC 31 654 1) m_XRTLRARB_MASK m_PPCHTM 0;
  mk_opcode "subfeo" (m_XO 31 136 1 0) m_XO_MASK m_PPCCOM 0;
  mk_opcode "sfeo" (m_XO 31 136 1 0) m_XO_MASK m_PWRCOM 0;
  mk_opcode "subfeo." (m_XO 31 136 1 1) m_XO_MASK m_PPCCOM 0;
  mk_opcode "sfeo." (m_XO 31 136 1 1) m_XO_MASK m_PWRCOM 0;
  mk_opcode "addeo" (m_XO 31 138 1 0) m_XO_MASK m_PPCCOM 0;
  mk_opcode "aeo" (m_XO 31 138 1 0) m_XO_MASK m_PWRCOM 0;
  mk_opcode "addeo." (m_XO 31 138 1 1) m_XO_MASK m_PPCCOM 0;
  mk_opcode "aeo." (m_XO 31 138 1 1) m_XO_MASK m_PWRCOM 0;
  mk_opcode "mfsrin" (m_X 31 659) m_XRA_MASK m_PPC m_NON32;
  mk_opcode "stdbrx" (m_X 31 660) m_X_MASK ((m_CELL .| m_POWER7) .| m_PPCA2) 0;
  mk_opcode "stswx" (m_X 31 661) m_X_MASK m_PPCCOM (m_E500 .| m_E500MC);
  mk_opcode "stsx" (m_X 31 661) m_X_MASK m_PWRCOM 0;
  mk_opcode "stwbrx" (m_X 31 662) m_X_MASK m_PPCCOM 0;
  mk_opcode "stbrx" (m_X 31 662) m_X_MASK m_PWRCOM 0;
  mk_opcode "stfsx" (m_X 31 663) m_X_MASK m_COM m_PPCEFS;
  mk_opcode "srq" (m_XRC 31 664 0) m_X_MASK m_M601 0;
  mk_opcode "srq." (m_XRC 31 664 1) m_X_MASK m_M601 0;
  mk_opcode "sre" (m_XRC 31 665 0) m_X_MASK m_M601 0;
  mk_opcode "sre." (m_XRC 31 665 1) m_X_MASK m_M601 0;
  mk_opcode "sthdcbx" (m_X 31 674) m_X_MASK m_E200Z4 0;
  mk_opcode "sthdx" (m_X 31 675) m_X_MASK (m_E500MC .| m_E200Z4) 0;
  mk_opcode "stvfrx" (m_X 31 677) m_X_MASK m_E6500 0;
  mk_opcode "stvrx" (m_X 31 679) m_X_MASK m_CELL 0;
  mk_opcode "sthfcmux" (m_APU 31 679 0) m_APU_MASK m_PPC405 0;
  mk_opcode "tendall." ((m_XRC 31 686 1) .| (1 .<< 25)) m_XRTRARB_MASK m_PPCHTM 0;
  mk_opcode "tend." (m_XRC 31 686 1) m_XRTARARB_MASK m_PPCHTM 0;
  mk_opcode "stbcx." (m_XRC 31 694 1) m_X_MASK (m_POWER8 .| m_E6500) 0;
  mk_opcode "stfsux" (m_X 31 695) m_X_MASK m_COM m_PPCEFS;
  mk_opcode "sriq" (m_XRC 31 696 0) m_X_MASK m_M601 0;
  mk_opcode "sriq." (m_XRC 31 696 1) m_X_MASK m_M601 0;
  mk_opcode "stwdcbx" (m_X 31 706) m_X_MASK m_E200Z4 0;
  mk_opcode "stwdx" (m_X 31 707) m_X_MASK (m_E500MC .| m_E200Z4) 0;
  mk_opcode "stvflx" (m_X 31 709) m_X_MASK m_E6500 0;
  mk_opcode "stwat" (m_X 31 710) m_X_MASK m_POWER9 0;
  mk_opcode "stwfcmux" (m_APU 31 711 0) m_APU_MASK m_PPC405 0;
  mk_opcode "stxsdx" (m_X 31 716) m_XX1_MASK m_PPCVSX 0;
  mk_opcode "tcheck" (m_X 31 718) m_XRTBFRARB_MASK m_PPCHTM 0;
  mk_opcode "subfzeo" (m_XO 31 200 1 0) m_XORB_MASK m_PPCCOM 0;
  mk_opcode "sfzeo" (m_XO 31 200 1 0) m_XORB_MASK m_PWRCOM 0;
  mk_opcode "subfzeo." (m_XO 31 200 1 1) m_XORB_MASK m_PPCCOM 0;
  mk_opcode "sfzeo." (m_XO 31 200 1 1) m_XORB_MASK m_PWRCOM 0;
  mk_opcode "addzeo" (m_XO 31 202 1 0) m_XORB_MASK m_PPCCOM 0;
  mk_opcode "azeo" (m_XO 31 202 1 0) m_XORB_MASK m_PWRCOM 0;
  mk_opcode "addzeo." (m_XO 31 202 1 1) m_XORB_MASK m_PPCCOM 0;
  mk_opcode "azeo." (m_XO 31 202 1 1) m_XORB_MASK m_PWRCOM 0;
  mk_opcode "stswi" (m_X 31 725) m_X_MASK m_PPCCOM (m_E500 .| m_E500MC);
  mk_opcode "stsi" (m_X 31 725) m_X_MASK m_PWRCOM 0;
  mk_opcode "sthcx." (m_XRC 31 726 1) m_X_MASK (m_POWER8 .| m_E6500) 0;
  mk_opcode "stfdx" (m_X 31 727) m_X_MASK m_COM m_PPCEFS;
  mk_opcode "srlq" (m_XRC 31 728 0) m_X_MASK m_M601 0;
  mk_opcode "srlq." (m_XRC 31 728 1) m_X_MASK m_M601 0;
  mk_opcode "sreq" (m_XRC 31 729 0) m_X_MASK m_M601 0;
  mk_opcode "sreq." (m_XRC 31 729 1) m_X_MASK m_M601 0;
  mk_opcode "mftgpr" (m_XRC 31 735 0) m_XRA_MASK m_POWER6 m_POWER7;
  mk_opcode "stfdepx" (m_X 31 735) m_X_MASK (m_E500MC .| m_PPCA2) 0;
  mk_opcode "stddx" (m_X 31 739) m_X_MASK m_E500MC 0;
  mk_opcode "stvswx" (m_X 31 741) m_X_MASK m_E6500 0;
  mk_opcode "stdat" (m_X 31 742) m_X_MASK m_POWER9 0;
  mk_opcode "stqfcmux" (m_APU 31 743 0) m_APU_MASK m_PPC405 0;
  mk_opcode "subfmeo" (m_XO 31 232 1 0) m_XORB_MASK m_PPCCOM 0;
  mk_opcode "sfmeo" (m_XO 31 232 1 0) m_XORB_MASK m_PWRCOM 0;
  mk_opcode "subfmeo." (m_XO 31 232 1 1) m_XORB_MASK m_PPCCOM 0;
  mk_opcode "sfmeo." (m_XO 31 232 1 1) m_XORB_MASK m_PWRCOM 0;
  mk_opcode "mulldo" (m_XO 31 233 1 0) m_XO_MASK m_PPC64 0;
  mk_opcode "mulldo." (m_XO 31 233 1 1) m_XO_MASK m_PPC64 0;
  mk_opcode "addmeo" (m_XO 31 234 1 0) m_XORB_MASK m_PPCCOM 0;
  mk_opcode "ameo" (m_XO 31 234 1 0) m_XORB_MASK m_PWRCOM 0;
  mk_opcode "addmeo." (m_XO 31 234 1 1) m_XORB_MASK m_PPCCOM 0;
  mk_opcode "ameo." (m_XO 31 234 1 1) m_XORB_MASK m_PWRCOM 0;
  mk_opcode "mullwo" (m_XO 31 235 1 0) m_XO_MASK m_PPCCOM 0;
  mk_opcode "mulso" (m_XO 31 235 1 0) m_XO_MASK m_PWRCOM 0;
  mk_opcode "mullwo." (m_XO 31 235 1 1) m_XO_MASK m_PPCCOM 0;
  mk_opcode "mulso." (m_XO 31 235 1 1) m_XO_MASK m_PWRCOM 0;
  mk_opcode "tsuspend." (m_XRCL 31 750 0 1) m_XRTRARB_MASK m_PPCHTM 0;
  mk_opcode "tresume." (m_XRCL 31 750 1 1) m_XRTRARB_MASK m_PPCHTM 0;
  mk_opcode "tsr." (m_XRC 31 750 1) m_XRTLRARB_MASK m_PPCHTM 0;
  mk_opcode "darn" (m_X 31 755) m_XLRAND_MASK m_POWER9 0;
  mk_opcode "dcba" (m_X 31 758) m_XRT_MASK ((((m_PPC405 .| m_PPC7450) .| m_BOOKE) .| m_PPCA2) .| m_PPC476) 0;
  mk_opcode "dcbal" (m_XOPL 31 758 1) m_XRT_MASK m_E500MC 0;
  mk_opcode "stfdux" (m_X 31 759) m_X_MASK m_COM m_PPCEFS].
(* qtlib/ppc-opc.c:6621-6777 *)
Definition opcodes_27 : list opcode := [
  mk_opcode "srliq" (m_XRC 31 760 0) m_X_MASK m_M601 0;
  mk_opcode "srliq." (m_XRC 31 760 1) m_X_MASK m_M601 0;
  mk_opcode "lvsm" (m_X 31 773) m_X_MASK m_E6500 0;
  mk_opcode "copy" (m_XOPL 31 774 1) m_XRT_MASK m_POWER9 0;
  mk_opcode "stvepxl" (m_X 31 775) m_X_MASK m_E6500 0;
  mk_opcode "lvlxl" (m_X 31 775) m_X_MASK m_CELL 0;
  mk_opcode "ldfcmux" (m_APU 31 775 0) m_APU_MASK m_PPC405 0;
  mk_opcode "dozo" (m_XO 31 264 1 0) m_XO_MASK m_M601 0;
  mk_opcode "dozo." (m_XO 31 264 1 1) m_XO_MASK m_M601 0;
  mk_opcode "addo" (m_XO 31 266 1 0) m_XO_MASK m_PPCCOM 0;
  mk_opcode "caxo" (m_XO 31 266 1 0) m_XO_MASK m_PWRCOM 0;
  mk_opcode "addo." (m_XO 31 266 1 1) m_XO_MASK m_PPCCOM 0;
  mk_opcode "caxo." (m_XO 31 266 1 1) m_XO_MASK m_PWRCOM 0;
  mk_opcode "modsd" (m_X 31 777) m_X_MASK m_POWER9 0;
  mk_opcode "modsw" (m_X 31 779) m_X_MASK m_POWER9 0;
  mk_opcode "lxvw4x" (m_X 31 780) m_XX1_MASK m_PPCVSX 0;
  mk_opcode "lxsibzx" (m_X 31 781) m_XX1_MASK m_PPCVSX3 0;
  mk_opcode "tabortwc." (m_XRC 31 782 1) m_X_MASK m_PPCHTM 0;
  mk_opcode "tlbivax" (m_X 31 786) m_XRT_MASK ((m_BOOKE .| m_PPCA2) .| m_PPC476) 0;
  mk_opcode "lwzcix" (m_X 31 789) m_X_MASK m_POWER6 0;
  mk_opcode "lhbrx" (m_X 31 790) m_X_MASK m_COM 0;
  mk_opcode "lfdpx" (m_X 31 791) (m_X_MASK .| m_Q_MASK) m_POWER6 m_POWER7;
  mk_opcode "lfqx" (m_X 31 791) m_X_MASK m_POWER2 0;
  mk_opcode "sraw" (m_XRC 31 792 0) m_X_MASK m_PPCCOM 0;
  mk_opcode "sra" (m_XRC 31 792 0) m_X_MASK m_PWRCOM 0;
  mk_opcode "sraw." (m_XRC 31 792 1) m_X_MASK m_PPCCOM 0;
  mk_opcode "sra." (m_XRC 31 792 1) m_X_MASK m_PWRCOM 0;
  mk_opcode "srad" (m_XRC 31 794 0) m_X_MASK m_PPC64 0;
  mk_opcode "srad." (m_XRC 31 794 1) m_X_MASK m_PPC64 0;
  mk_opcode "evlddepx" (m_VX 31 1598) m_VX_MASK m_PPCSPE 0;
  mk_opcode "lfddx" (m_X 31 803) m_X_MASK m_E500MC 0;
  mk_opcode "lvtrxl" (m_X 31 805) m_X_MASK m_E6500 0;
  mk_opcode "stvepx" (m_X 31 807) m_X_MASK m_E6500 0;
  mk_opcode "lvrxl" (m_X 31 807) m_X_MASK m_CELL 0;
  mk_opcode "lxvh8x" (m_X 31 812) m_XX1_MASK m_PPCVSX3 0;
  mk_opcode "lxsihzx" (m_X 31 813) m_XX1_MASK m_PPCVSX3 0;
  mk_opcode "tabortdc." (m_XRC 31 814 1) m_X_MASK m_PPCHTM 0;
  mk_opcode "rac" (m_X 31 818) m_X_MASK m_M601 0;
  mk_opcode "erativax" (m_X 31 819) m_X_MASK m_PPCA2 0;
  mk_opcode "lhzcix" (m_X 31 821) m_X_MASK m_POWER6 0;
  mk_opcode "dss" (m_XDSS 31 822 0) m_XDSS_MASK m_PPCVEC 0;
  mk_opcode "lfqux" (m_X 31 823) m_X_MASK m_POWER2 0;
  mk_opcode "srawi" (m_XRC 31 824 0) m_X_MASK m_PPCCOM 0;
  mk_opcode "srai" (m_XRC 31 824 0) m_X_MASK m_PWRCOM 0;
  mk_opcode "srawi." (m_XRC 31 824 1) m_X_MASK m_PPCCOM 0;
  mk_opcode "srai." (m_XRC 31 824 1) m_X_MASK m_PWRCOM 0;
  mk_opcode "sradi" (m_XS 31 413 0) m_XS_MASK m_PPC64 0;
  mk_opcode "sradi." (m_XS 31 413 1) m_XS_MASK m_PPC64 0;
  mk_opcode "lvtlxl" (m_X 31 837) m_X_MASK m_E6500 0;
  mk_opcode "cpabort" (m_X 31 838) m_XRTRARB_MASK m_POWER9 0;
  mk_opcode "divo" (m_XO 31 331 1 0) m_XO_MASK m_M601 0;
  mk_opcode "divo." (m_XO 31 331 1 1) m_XO_MASK m_M601 0;
  mk_opcode "lxvd2x" (m_X 31 844) m_XX1_MASK m_PPCVSX 0;
  mk_opcode "lxvx" (m_X 31 844) m_XX1_MASK m_POWER8 (m_POWER9 .| m_PPCVSX3);
  mk_opcode "tabortwci." (m_XRC 31 846 1) m_X_MASK m_PPCHTM 0;
  mk_opcode "tlbsrx." (m_XRC 31 850 1) m_XRT_MASK m_PPCA2 0;
  mk_opcode "slbiag" (m_X 31 850) m_XRARB_MASK m_POWER9 0;
  mk_opcode "slbmfev" (m_X 31 851) m_XRLA_MASK m_POWER9 0;
  mk_opcode "slbmfev" (m_X 31 851) m_XRA_MASK m_PPC64 m_POWER9;
  mk_opcode "lbzcix" (m_X 31 853) m_X_MASK m_POWER6 0;
  mk_opcode "eieio" (m_X 31 854) 0xffffffff m_PPC ((m_BOOKE .| m_PPCA2) .| m_PPC476);
  mk_opcode "mbar" (m_X 31 854) m_X_MASK ((m_BOOKE .| m_PPCA2) .| m_PPC476) 0;
  mk_opcode "eieio" (m_XMBAR 31 854 1) 0xffffffff m_E500 0;
  mk_opcode "eieio" (m_X 31 854) 0xffffffff (m_PPCA2 .| m_PPC476) 0;
  mk_opcode "lfiwax" (m_X 31 855) m_X_MASK ((m_POWER6 .| m_PPCA2) .| m_PPC476) 0;
  mk_opcode "lvswxl" (m_X 31 869) m_X_MASK m_E6500 0;
  mk_opcode "abso" (m_XO 31 360 1 0) m_XORB_MASK m_M601 0;
  mk_opcode "abso." (m_XO 31 360 1 1) m_XORB_MASK m_M601 0;
  mk_opcode "divso" (m_XO 31 363 1 0) m_XO_MASK m_M601 0;
  mk_opcode "divso." (m_XO 31 363 1 1) m_XO_MASK m_M601 0;
  mk_opcode "lxvb16x" (m_X 31 876) m_XX1_MASK m_PPCVSX3 0;
  mk_opcode "tabortdci." (m_XRC 31 878 1) m_X_MASK m_PPCHTM 0;
  mk_opcode "rmieg" (m_X 31 882) m_XRTRA_MASK m_POWER9 0;
  mk_opcode "ldcix" (m_X 31 885) m_X_MASK m_POWER6 0;
  mk_opcode "msgsync" (m_X 31 886) 0xffffffff m_POWER9 0;
  mk_opcode "lfiwzx" (m_X 31 887) m_X_MASK (m_POWER7 .| m_PPCA2) 0;
  mk_opcode "extswsli" (m_XS 31 445 0) m_XS_MASK m_POWER9 0;
  mk_opcode "extswsli." (m_XS 31 445 1) m_XS_MASK m_POWER9 0;
  mk_opcode "paste." (m_XRCL 31 902 1 1) m_XRT_MASK m_POWER9 0;
  mk_opcode "stvlxl" (m_X 31 903) m_X_MASK m_CELL 0;
  mk_opcode "stdfcmux" (m_APU 31 903 0) m_APU_MASK m_PPC405 0;
  mk_opcode "divdeuo" (m_XO 31 393 1 0) m_XO_MASK (m_POWER7 .| m_PPCA2) 0;
  mk_opcode "divdeuo." (m_XO 31 393 1 1) m_XO_MASK (m_POWER7 .| m_PPCA2) 0;
  mk_opcode "divweuo" (m_XO 31 395 1 0) m_XO_MASK (m_POWER7 .| m_PPCA2) 0;
  mk_opcode "divweuo." (m_XO 31 395 1 1) m_XO_MASK (m_POWER7 .| m_PPCA2) 0;
  mk_opcode "stxvw4x" (m_X 31 908) m_XX1_MASK m_PPCVSX 0;
  mk_opcode "stxsibx" (m_X 31 909) m_XX1_MASK m_PPCVSX3 0;
  mk_opcode "tabort." (m_XRC 31 910 1) m_XRTRB_MASK m_PPCHTM 0;
  mk_opcode "tlbsx" (m_XRC 31 914 0) m_X_MASK (((m_PPC403 .| m_BOOKE) .| m_PPCA2) .| m_PPC476) 0;
  mk_opcode "tlbsx." (m_XRC 31 914 1) m_X_MASK (((m_PPC403 .| m_BOOKE) .| m_PPCA2) .| m_PPC476) 0;
  mk_opcode "slbmfee" (m_X 31 915) m_XRLA_MASK m_POWER9 0;
  mk_opcode "slbmfee" (m_X 31 915) m_XRA_MASK m_PPC64 m_POWER9;
  mk_opcode "stwcix" (m_X 31 917) m_X_MASK m_POWER6 0;
  mk_opcode "sthbrx" (m_X 31 918) m_X_MASK m_COM 0;
  mk_opcode "stfdpx" (m_X 31 919) (m_X_MASK .| m_Q_MASK) m_POWER6 m_POWER7;
  mk_opcode "stfqx" (m_X 31 919) m_X_MASK m_POWER2 0;
  mk_opcode "sraq" (m_XRC 31 920 0) m_X_MASK m_M601 0;
  mk_opcode "sraq." (m_XRC 31 920 1) m_X_MASK m_M601 0;
  mk_opcode "srea" (m_XRC 31 921 0) m_X_MASK m_M601 0;
  mk_opcode "srea." (m_XRC 31 921 1) m_X_MASK m_M601 0].
(* qtlib/ppc-opc.c:6779-6937 *)
Definition opcodes_28 : list opcode := [
  mk_opcode "extsh" (m_XRC 31 922 0) m_XRB_MASK m_PPCCOM 0;
  mk_opcode "exts" (m_XRC 31 922 0) m_XRB_MASK m_PWRCOM 0;
  mk_opcode "extsh." (m_XRC 31 922 1) m_XRB_MASK m_PPCCOM 0;
  mk_opcode "exts." (m_XRC 31 922 1) m_XRB_MASK m_PWRCOM 0;
  mk_opcode "evstddepx" (m_VX 31 1854) m_VX_MASK m_PPCSPE 0;
  mk_opcode "stfddx" (m_X 31 931) m_X_MASK m_E500MC 0;
  mk_opcode "stvfrxl" (m_X 31 933) m_X_MASK m_E6500 0;
  mk_opcode "wclrone" (m_XOPL2 31 934 2) m_XRT_MASK m_PPCA2 0;
  mk_opcode "wclrall" (m_X 31 934) m_XRARB_MASK m_PPCA2 0;
  mk_opcode "wclr" (m_X 31 934) m_X_MASK m_PPCA2 0;
  mk_opcode "stvrxl" (m_X 31 935) m_X_MASK m_CELL 0;
  mk_opcode "divdeo" (m_XO 31 425 1 0) m_XO_MASK (m_POWER7 .| m_PPCA2) 0;
  mk_opcode "divdeo." (m_XO 31 425 1 1) m_XO_MASK (m_POWER7 .| m_PPCA2) 0;
  mk_opcode "divweo" (m_XO 31 427 1 0) m_XO_MASK (m_POWER7 .| m_PPCA2) 0;
  mk_opcode "divweo." (m_XO 31 427 1 1) m_XO_MASK (m_POWER7 .| m_PPCA2) 0;
  mk_opcode "stxvh8x" (m_X 31 940) m_XX1_MASK m_PPCVSX3 0;
  mk_opcode "stxsihx" (m_X 31 941) m_XX1_MASK m_PPCVSX3 0;
  mk_opcode "treclaim." (m_XRC 31 942 1) m_XRTRB_MASK m_PPCHTM 0;
  mk_opcode "tlbrehi" (m_XTLB 31 946 0) m_XTLB_MASK m_PPC403 m_PPCA2;
  mk_opcode "tlbrelo" (m_XTLB 31 946 1) m_XTLB_MASK m_PPC403 m_PPCA2;
  mk_opcode "tlbre" (m_X 31 946) m_X_MASK (((m_PPC403 .| m_BOOKE) .| m_PPCA2) .| m_PPC476) 0;
  mk_opcode "sthcix" (m_X 31 949) m_X_MASK m_POWER6 0;
  mk_opcode "icswepx" (m_XRC 31 950 0) m_X_MASK m_PPCA2 0;
  mk_opcode "icswepx." (m_XRC 31 950 1) m_X_MASK m_PPCA2 0;
  mk_opcode "stfqux" (m_X 31 951) m_X_MASK m_POWER2 0;
  mk_opcode "sraiq" (m_XRC 31 952 0) m_X_MASK m_M601 0;
  mk_opcode "sraiq." (m_XRC 31 952 1) m_X_MASK m_M601 0;
  mk_opcode "extsb" (m_XRC 31 954 0) m_XRB_MASK m_PPC 0;
  mk_opcode "extsb." (m_XRC 31 954 1) m_XRB_MASK m_PPC 0;
  mk_opcode "stvflxl" (m_X 31 965) m_X_MASK m_E6500 0;
  mk_opcode "iccci" (m_X 31 966) m_XRT_MASK ((((m_PPC403 .| m_PPC440) .| m_PPC476) .| m_TITAN) .| m_PPCA2) 0;
  mk_opcode "ici" (m_X 31 966) m_XRARB_MASK (m_PPCA2 .| m_PPC476) 0;
  mk_opcode "divduo" (m_XO 31 457 1 0) m_XO_MASK m_PPC64 0;
  mk_opcode "divduo." (m_XO 31 457 1 1) m_XO_MASK m_PPC64 0;
  mk_opcode "divwuo" (m_XO 31 459 1 0) m_XO_MASK m_PPC 0;
  mk_opcode "divwuo." (m_XO 31 459 1 1) m_XO_MASK m_PPC 0;
  mk_opcode "stxvd2x" (m_X 31 972) m_XX1_MASK m_PPCVSX 0;
  mk_opcode "stxvx" (m_X 31 972) m_XX1_MASK m_POWER8 (m_POWER9 .| m_PPCVSX3);
  mk_opcode "tlbld" (m_X 31 978) m_XRTRA_MASK m_PPC (((m_PPC403 .| m_BOOKE) .| m_PPCA2) .| m_PPC476);
  mk_opcode "tlbwehi" (m_XTLB 31 978 0) m_XTLB_MASK m_PPC403 0;
  mk_opcode "tlbwelo" (m_XTLB 31 978 1) m_XTLB_MASK m_PPC403 0;
  mk_opcode "tlbwe" (m_X 31 978) m_X_MASK (((m_PPC403 .| m_BOOKE) .| m_PPCA2) .| m_PPC476) 0;
  mk_opcode "slbfee." (m_XRC 31 979 1) m_XRA_MASK m_POWER6 0;
  mk_opcode "stbcix" (m_X 31 981) m_X_MASK m_POWER6 0;
  mk_opcode "icbi" (m_X 31 982) m_XRT_MASK m_PPC 0;
  mk_opcode "stfiwx" (m_X 31 983) m_X_MASK m_PPC m_PPCEFS;
  mk_opcode "extsw" (m_XRC 31 986 0) m_XRB_MASK m_PPC64 0;
  mk_opcode "extsw." (m_XRC 31 986 1) m_XRB_MASK m_PPC64 0;
  mk_opcode "icbiep" (m_XRT 31 991 0) m_XRT_MASK (m_E500MC .| m_PPCA2) 0;
  mk_opcode "stvswxl" (m_X 31 997) m_X_MASK m_E6500 0;
  mk_opcode "icread" (m_X 31 998) m_XRT_MASK (((m_PPC403 .| m_PPC440) .| m_PPC476) .| m_TITAN) 0;
  mk_opcode "nabso" (m_XO 31 488 1 0) m_XORB_MASK m_M601 0;
  mk_opcode "nabso." (m_XO 31 488 1 1) m_XORB_MASK m_M601 0;
  mk_opcode "divdo" (m_XO 31 489 1 0) m_XO_MASK m_PPC64 0;
  mk_opcode "divdo." (m_XO 31 489 1 1) m_XO_MASK m_PPC64 0;
  mk_opcode "divwo" (m_XO 31 491 1 0) m_XO_MASK m_PPC 0;
  mk_opcode "divwo." (m_XO 31 491 1 1) m_XO_MASK m_PPC 0;
  mk_opcode "stxvb16x" (m_X 31 1004) m_XX1_MASK m_PPCVSX3 0;
  mk_opcode "trechkpt." (m_XRC 31 1006 1) m_XRTRARB_MASK m_PPCHTM 0;
  mk_opcode "tlbli" (m_X 31 1010) m_XRTRA_MASK m_PPC m_TITAN;
  mk_opcode "stdcix" (m_X 31 1013) m_X_MASK m_POWER6 0;
  mk_opcode "dcbz" (m_X 31 1014) m_XRT_MASK m_PPC 0;
  mk_opcode "dclz" (m_X 31 1014) m_XRT_MASK m_PPC 0;
  mk_opcode "dcbzep" (m_XRT 31 1023 0) m_XRT_MASK (m_E500MC .| m_PPCA2) 0;
  mk_opcode "dcbzl" (m_XOPL 31 1014 1) m_XRT_MASK (m_POWER4 .| m_E500MC) m_PPC476;
  mk_opcode "cctpl" 0x7c210b78 0xffffffff m_CELL 0;
  mk_opcode "cctpm" 0x7c421378 0xffffffff m_CELL 0;
  mk_opcode "cctph" 0x7c631b78 0xffffffff m_CELL 0;
  mk_opcode "dstt" (m_XDSS 31 342 1) m_XDSS_MASK m_PPCVEC 0;
  mk_opcode "dststt" (m_XDSS 31 374 1) m_XDSS_MASK m_PPCVEC 0;
  mk_opcode "dssall" (m_XDSS 31 822 1) m_XDSS_MASK m_PPCVEC 0;
  mk_opcode "db8cyc" 0x7f9ce378 0xffffffff m_CELL 0;
  mk_opcode "db10cyc" 0x7fbdeb78 0xffffffff m_CELL 0;
  mk_opcode "db12cyc" 0x7fdef378 0xffffffff m_CELL 0;
  mk_opcode "db16cyc" 0x7ffffb78 0xffffffff m_CELL 0;
  mk_opcode "lwz" (m_OP 32) m_OP_MASK m_PPCCOM m_PPCVLE;
  mk_opcode "l" (m_OP 32) m_OP_MASK m_PWRCOM m_PPCVLE;
  mk_opcode "lwzu" (m_OP 33) m_OP_MASK m_PPCCOM m_PPCVLE;
  mk_opcode "lu" (m_OP 33) m_OP_MASK m_PWRCOM m_PPCVLE;
  mk_opcode "lbz" (m_OP 34) m_OP_MASK m_COM m_PPCVLE;
  mk_opcode "lbzu" (m_OP 35) m_OP_MASK m_COM m_PPCVLE;
  mk_opcode "stw" (m_OP 36) m_OP_MASK m_PPCCOM m_PPCVLE;
  mk_opcode "st" (m_OP 36) m_OP_MASK m_PWRCOM m_PPCVLE;
  mk_opcode "stwu" (m_OP 37) m_OP_MASK m_PPCCOM m_PPCVLE;
  mk_opcode "stu" (m_OP 37) m_OP_MASK m_PWRCOM m_PPCVLE;
  mk_opcode "stb" (m_OP 38) m_OP_MASK m_COM m_PPCVLE;
  mk_opcode "stbu" (m_OP 39) m_OP_MASK m_COM m_PPCVLE;
  mk_opcode "lhz" (m_OP 40) m_OP_MASK m_COM m_PPCVLE;
  mk_opcode "lhzu" (m_OP 41) m_OP_MASK m_COM m_PPCVLE;
  mk_opcode "lha" (m_OP 42) m_OP_MASK m_COM m_PPCVLE;
  mk_opcode "lhau" (m_OP 43) m_OP_MASK m_COM m_PPCVLE;
  mk_opcode "sth" (m_OP 44) m_OP_MASK m_COM m_PPCVLE;
  mk_opcode "sthu" (m_OP 45) m_OP_MASK m_COM m_PPCVLE;
  mk_opcode "lmw" (m_OP 46) m_OP_MASK m_PPCCOM m_PPCVLE;
  mk_opcode "lm" (m_OP 46) m_OP_MASK m_PWRCOM m_PPCVLE;
  mk_opcode "stmw" (m_OP 47) m_OP_MASK m_PPCCOM m_PPCVLE;
  mk_opcode "stm" (m_OP 47) m_OP_MASK m_PWRCOM m_PPCVLE;
  mk_opcode "lfs" (m_OP 48) m_OP_MASK m_COM (m_PPCEFS .| m_PPCVLE);
  mk_opcode "lfsu" (m_OP 49) m_OP_MASK m_COM (m_PPCEFS .| m_PPCVLE);
  mk_opcode "lfd" (m_OP 50) m_OP_MASK m_COM (m_PPCEFS .| m_PPCVLE)].
(* qtlib/ppc-opc.c:6939-7082 *)
Definition opcodes_29 : list opcode := [
  mk_opcode "lfdu" (m_OP 51) m_OP_MASK m_COM (m_PPCEFS .| m_PPCVLE);
  mk_opcode "stfs" (m_OP 52) m_OP_MASK m_COM (m_PPCEFS .| m_PPCVLE);
  mk_opcode "stfsu" (m_OP 53) m_OP_MASK m_COM (m_PPCEFS .| m_PPCVLE);
  mk_opcode "stfd" (m_OP 54) m_OP_MASK m_COM (m_PPCEFS .| m_PPCVLE);
  mk_opcode "stfdu" (m_OP 55) m_OP_MASK m_COM (m_PPCEFS .| m_PPCVLE);
  mk_opcode "lq" (m_OP 56) (m_OP_MASK .| m_Q_MASK) m_POWER4 (m_PPC476 .| m_PPCVLE);
  mk_opcode "psq_l" (m_OP 56) m_OP_MASK m_PPCPS m_PPCVLE;
  mk_opcode "lfq" (m_OP 56) m_OP_MASK m_POWER2 m_PPCVLE;
  mk_opcode "lxsd" (m_DSO 57 2) m_DS_MASK m_PPCVSX3 m_PPCVLE;
  mk_opcode "lxssp" (m_DSO 57 3) m_DS_MASK m_PPCVSX3 m_PPCVLE;
  mk_opcode "lfdp" (m_OP 57) (m_OP_MASK .| m_Q_MASK) m_POWER6 (m_POWER7 .| m_PPCVLE);
  mk_opcode "psq_lu" (m_OP 57) m_OP_MASK m_PPCPS m_PPCVLE;
  mk_opcode "lfqu" (m_OP 57) m_OP_MASK m_POWER2 m_PPCVLE;
  mk_opcode "ld" (m_DSO 58 0) m_DS_MASK m_PPC64 m_PPCVLE;
  mk_opcode "ldu" (m_DSO 58 1) m_DS_MASK m_PPC64 m_PPCVLE;
  mk_opcode "lwa" (m_DSO 58 2) m_DS_MASK m_PPC64 m_PPCVLE;
  mk_opcode "dadd" (m_XRC 59 2 0) m_X_MASK m_POWER6 m_PPCVLE;
  mk_opcode "dadd." (m_XRC 59 2 1) m_X_MASK m_POWER6 m_PPCVLE;
  mk_opcode "dqua" (m_ZRC 59 3 0) m_Z2_MASK m_POWER6 m_PPCVLE;
  mk_opcode "dqua." (m_ZRC 59 3 1) m_Z2_MASK m_POWER6 m_PPCVLE;
  mk_opcode "fdivs" (m_A 59 18 0) m_AFRC_MASK m_PPC (m_PPCEFS .| m_PPCVLE);
  mk_opcode "fdivs." (m_A 59 18 1) m_AFRC_MASK m_PPC (m_PPCEFS .| m_PPCVLE);
  mk_opcode "fsubs" (m_A 59 20 0) m_AFRC_MASK m_PPC (m_PPCEFS .| m_PPCVLE);
  mk_opcode "fsubs." (m_A 59 20 1) m_AFRC_MASK m_PPC (m_PPCEFS .| m_PPCVLE);
  mk_opcode "fadds" (m_A 59 21 0) m_AFRC_MASK m_PPC (m_PPCEFS .| m_PPCVLE);
  mk_opcode "fadds." (m_A 59 21 1) m_AFRC_MASK m_PPC (m_PPCEFS .| m_PPCVLE);
  mk_opcode "fsqrts" (m_A 59 22 0) m_AFRAFRC_MASK m_PPC (m_TITAN .| m_PPCVLE);
  mk_opcode "fsqrts." (m_A 59 22 1) m_AFRAFRC_MASK m_PPC (m_TITAN .| m_PPCVLE);
  mk_opcode "fres" (m_A 59 24 0) m_AFRAFRC_MASK m_POWER7 m_PPCVLE;
  mk_opcode "fres" (m_A 59 24 0) m_AFRALFRC_MASK m_PPC (m_POWER7 .| m_PPCVLE);
  mk_opcode "fres." (m_A 59 24 1) m_AFRAFRC_MASK m_POWER7 m_PPCVLE;
  mk_opcode "fres." (m_A 59 24 1) m_AFRALFRC_MASK m_PPC (m_POWER7 .| m_PPCVLE);
  mk_opcode "fmuls" (m_A 59 25 0) m_AFRB_MASK m_PPC (m_PPCEFS .| m_PPCVLE);
  mk_opcode "fmuls." (m_A 59 25 1) m_AFRB_MASK m_PPC (m_PPCEFS .| m_PPCVLE);
  mk_opcode "frsqrtes" (m_A 59 26 0) m_AFRAFRC_MASK m_POWER7 m_PPCVLE;
  mk_opcode "frsqrtes" (m_A 59 26 0) m_AFRALFRC_MASK m_POWER5 (m_POWER7 .| m_PPCVLE);
  mk_opcode "frsqrtes." (m_A 59 26 1) m_AFRAFRC_MASK m_POWER7 m_PPCVLE;
  mk_opcode "frsqrtes." (m_A 59 26 1) m_AFRALFRC_MASK m_POWER5 (m_POWER7 .| m_PPCVLE);
  mk_opcode "fmsubs" (m_A 59 28 0) m_A_MASK m_PPC (m_PPCEFS .| m_PPCVLE);
  mk_opcode "fmsubs." (m_A 59 28 1) m_A_MASK m_PPC (m_PPCEFS .| m_PPCVLE);
  mk_opcode "fmadds" (m_A 59 29 0) m_A_MASK m_PPC (m_PPCEFS .| m_PPCVLE);
  mk_opcode "fmadds." (m_A 59 29 1) m_A_MASK m_PPC (m_PPCEFS .| m_PPCVLE);
  mk_opcode "fnmsubs" (m_A 59 30 0) m_A_MASK m_PPC (m_PPCEFS .| m_PPCVLE);
  mk_opcode "fnmsubs." (m_A 59 30 1) m_A_MASK m_PPC (m_PPCEFS .| m_PPCVLE);
  mk_opcode "fnmadds" (m_A 59 31 0) m_A_MASK m_PPC (m_PPCEFS .| m_PPCVLE);
  mk_opcode "fnmadds." (m_A 59 31 1) m_A_MASK m_PPC (m_PPCEFS .| m_PPCVLE);
  mk_opcode "dmul" (m_XRC 59 34 0) m_X_MASK m_POWER6 m_PPCVLE;
  mk_opcode "dmul." (m_XRC 59 34 1) m_X_MASK m_POWER6 m_PPCVLE;
  mk_opcode "drrnd" (m_ZRC 59 35 0) m_Z2_MASK m_POWER6 m_PPCVLE;
  mk_opcode "drrnd." (m_ZRC 59 35 1) m_Z2_MASK m_POWER6 m_PPCVLE;
  mk_opcode "dscli" (m_ZRC 59 66 0) m_Z_MASK m_POWER6 m_PPCVLE;
  mk_opcode "dscli." (m_ZRC 59 66 1) m_Z_MASK m_POWER6 m_PPCVLE;
  mk_opcode "dquai" (m_ZRC 59 67 0) m_Z2_MASK m_POWER6 m_PPCVLE;
  mk_opcode "dquai." (m_ZRC 59 67 1) m_Z2_MASK m_POWER6 m_PPCVLE;
  mk_opcode "dscri" (m_ZRC 59 98 0) m_Z_MASK m_POWER6 m_PPCVLE;
  mk_opcode "dscri." (m_ZRC 59 98 1) m_Z_MASK m_POWER6 m_PPCVLE;
  mk_opcode "drintx" (m_ZRC 59 99 0) m_Z2_MASK m_POWER6 m_PPCVLE;
  mk_opcode "drintx." (m_ZRC 59 99 1) m_Z2_MASK m_POWER6 m_PPCVLE;
  mk_opcode "dcmpo" (m_X 59 130) m_X_MASK m_POWER6 m_PPCVLE;
  mk_opcode "dtstex" (m_X 59 162) m_X_MASK m_POWER6 m_PPCVLE;
  mk_opcode "dtstdc" (m_Z 59 194) m_Z_MASK m_POWER6 m_PPCVLE;
  mk_opcode "dtstdg" (m_Z 59 226) m_Z_MASK m_POWER6 m_PPCVLE;
  mk_opcode "drintn" (m_ZRC 59 227 0) m_Z2_MASK m_POWER6 m_PPCVLE;
  mk_opcode "drintn." (m_ZRC 59 227 1) m_Z2_MASK m_POWER6 m_PPCVLE;
  mk_opcode "dctdp" (m_XRC 59 258 0) m_X_MASK m_POWER6 m_PPCVLE;
  mk_opcode "dctdp." (m_XRC 59 258 1) m_X_MASK m_POWER6 m_PPCVLE;
  mk_opcode "dctfix" (m_XRC 59 290 0) m_X_MASK m_POWER6 m_PPCVLE;
  mk_opcode "dctfix." (m_XRC 59 290 1) m_X_MASK m_POWER6 m_PPCVLE;
  mk_opcode "ddedpd" (m_XRC 59 322 0) m_X_MASK m_POWER6 m_PPCVLE;
  mk_opcode "ddedpd." (m_XRC 59 322 1) m_X_MASK m_POWER6 m_PPCVLE;
  mk_opcode "dxex" (m_XRC 59 354 0) m_X_MASK m_POWER6 m_PPCVLE;
  mk_opcode "dxex." (m_XRC 59 354 1) m_X_MASK m_POWER6 m_PPCVLE;
  mk_opcode "dsub" (m_XRC 59 514 0) m_X_MASK m_POWER6 m_PPCVLE;
  mk_opcode "dsub." (m_XRC 59 514 1) m_X_MASK m_POWER6 m_PPCVLE;
  mk_opcode "ddiv" (m_XRC 59 546 0) m_X_MASK m_POWER6 m_PPCVLE;
  mk_opcode "ddiv." (m_XRC 59 546 1) m_X_MASK m_POWER6 m_PPCVLE;
  mk_opcode "dcmpu" (m_X 59 642) m_X_MASK m_POWER6 m_PPCVLE;
  mk_opcode "dtstsf" (m_X 59 674) m_X_MASK m_POWER6 m_PPCVLE;
  mk_opcode "dtstsfi" (m_X 59 675) (m_X_MASK .| (1 .<< 22)) m_POWER9 m_PPCVLE;
  mk_opcode "drsp" (m_XRC 59 770 0) m_X_MASK m_POWER6 m_PPCVLE;
  mk_opcode "drsp." (m_XRC 59 770 1) m_X_MASK m_POWER6 m_PPCVLE;
  mk_opcode "dcffix" (m_XRC 59 802 0) (m_X_MASK .| m_FRA_MASK) m_POWER7 m_PPCVLE;
  mk_opcode "dcffix." (m_XRC 59 802 1) (m_X_MASK .| m_FRA_MASK) m_POWER7 m_PPCVLE;
  mk_opcode "denbcd" (m_XRC 59 834 0) m_X_MASK m_POWER6 m_PPCVLE;
  mk_opcode "denbcd." (m_XRC 59 834 1) m_X_MASK m_POWER6 m_PPCVLE;
  mk_opcode "fcfids" (m_XRC 59 846 0) m_XRA_MASK (m_POWER7 .| m_PPCA2) m_PPCVLE;
  mk_opcode "fcfids." (m_XRC 59 846 1) m_XRA_MASK (m_POWER7 .| m_PPCA2) m_PPCVLE;
  mk_opcode "diex" (m_XRC 59 866 0) m_X_MASK m_POWER6 m_PPCVLE;
  mk_opcode "diex." (m_XRC 59 866 1) m_X_MASK m_POWER6 m_PPCVLE;
  mk_opcode "fcfidus" (m_XRC 59 974 0) m_XRA_MASK (m_POWER7 .| m_PPCA2) m_PPCVLE;
  mk_opcode "fcfidus." (m_XRC 59 974 1) m_XRA_MASK (m_POWER7 .| m_PPCA2) m_PPCVLE;
  mk_opcode "xsaddsp" (m_XX3 60 0) m_XX3_MASK m_PPCVSX2 m_PPCVLE;
  mk_opcode "xsmaddasp" (m_XX3 60 1) m_XX3_MASK m_PPCVSX2 m_PPCVLE;
  mk_opcode "xxsldwi" (m_XX3 60 2) m_XX3SHW_MASK m_PPCVSX m_PPCVLE;
  mk_opcode "xscmpeqdp" (m_XX3 60 3) m_XX3_MASK m_PPCVSX3 m_PPCVLE;
  mk_opcode "xsrsqrtesp" (m_XX2 60 10) m_XX2_MASK m_PPCVSX2 m_PPCVLE;
  mk_opcode "xssqrtsp" (m_XX2 60 11) m_XX2_MASK m_PPCVSX2 m_PPCVLE;
  mk_opcode "xxsel" (m_XX4 60 3) m_XX4_MASK m_PPCVSX m_PPCVLE;
  mk_opcode "xssubsp" (m_XX3 60 8) m_XX3_MASK m_PPCVSX2 m_PPCVLE;
  mk_opcode "xsmaddmsp" (m_XX3 60 9) m_XX3_MASK m_PPCVSX2 m_PPCVLE].
(* qtlib/ppc-opc.c:7083-7182 *)
Definition opcodes_30 : list opcode := [
  mk_opcode "xxspltd" (m_XX3 60 10) m_XX3DM_MASK m_PPCVSX m_PPCVLE;
  mk_opcode "xxmrghd" (m_XX3 60 10) m_XX3_MASK m_PPCVSX m_PPCVLE;
  mk_opcode "xxswapd" ((m_XX3 60 10) .| (2 .<< 8)) m_XX3_MASK m_PPCVSX m_PPCVLE;
  mk_opcode "xxmrgld" ((m_XX3 60 10) .| (3 .<< 8)) m_XX3_MASK m_PPCVSX m_PPCVLE;
  mk_opcode "xxpermdi" (m_XX3 60 10) m_XX3DM_MASK m_PPCVSX m_PPCVLE;
  mk_opcode "xscmpgtdp" (m_XX3 60 11) m_XX3_MASK m_PPCVSX3 m_PPCVLE;
  mk_opcode "xsresp" (m_XX2 60 26) m_XX2_MASK m_PPCVSX2 m_PPCVLE;
  mk_opcode "xsmulsp" (m_XX3 60 16) m_XX3_MASK m_PPCVSX2 m_PPCVLE;
  mk_opcode "xsmsubasp" (m_XX3 60 17) m_XX3_MASK m_PPCVSX2 m_PPCVLE;
  mk_opcode "xxmrghw" (m_XX3 60 18) m_XX3_MASK m_PPCVSX m_PPCVLE;
  mk_opcode "xscmpgedp" (m_XX3 60 19) m_XX3_MASK m_PPCVSX3 m_PPCVLE;
  mk_opcode "xsdivsp" (m_XX3 60 24) m_XX3_MASK m_PPCVSX2 m_PPCVLE;
  mk_opcode "xsmsubmsp" (m_XX3 60 25) m_XX3_MASK m_PPCVSX2 m_PPCVLE;
  mk_opcode "xxperm" (m_XX3 60 26) m_XX3_MASK m_PPCVSX3 m_PPCVLE;
  mk_opcode "xsadddp" (m_XX3 60 32) m_XX3_MASK m_PPCVSX m_PPCVLE;
  mk_opcode "xsmaddadp" (m_XX3 60 33) m_XX3_MASK m_PPCVSX m_PPCVLE;
  mk_opcode "xscmpudp" (m_XX3 60 35) m_XX3BF_MASK m_PPCVSX m_PPCVLE;
  mk_opcode "xscvdpuxws" (m_XX2 60 72) m_XX2_MASK m_PPCVSX m_PPCVLE;
  mk_opcode "xsrdpi" (m_XX2 60 73) m_XX2_MASK m_PPCVSX m_PPCVLE;
  mk_opcode "xsrsqrtedp" (m_XX2 60 74) m_XX2_MASK m_PPCVSX m_PPCVLE;
  mk_opcode "xssqrtdp" (m_XX2 60 75) m_XX2_MASK m_PPCVSX m_PPCVLE;
  mk_opcode "xssubdp" (m_XX3 60 40) m_XX3_MASK m_PPCVSX m_PPCVLE;
  mk_opcode "xsmaddmdp" (m_XX3 60 41) m_XX3_MASK m_PPCVSX m_PPCVLE;
  mk_opcode "xscmpodp" (m_XX3 60 43) m_XX3BF_MASK m_PPCVSX m_PPCVLE;
  mk_opcode "xscvdpsxws" (m_XX2 60 88) m_XX2_MASK m_PPCVSX m_PPCVLE;
  mk_opcode "xsrdpiz" (m_XX2 60 89) m_XX2_MASK m_PPCVSX m_PPCVLE;
  mk_opcode "xsredp" (m_XX2 60 90) m_XX2_MASK m_PPCVSX m_PPCVLE;
  mk_opcode "xsmuldp" (m_XX3 60 48) m_XX3_MASK m_PPCVSX m_PPCVLE;
  mk_opcode "xsmsubadp" (m_XX3 60 49) m_XX3_MASK m_PPCVSX m_PPCVLE;
  mk_opcode "xxmrglw" (m_XX3 60 50) m_XX3_MASK m_PPCVSX m_PPCVLE;
  mk_opcode "xsrdpip" (m_XX2 60 105) m_XX2_MASK m_PPCVSX m_PPCVLE;
  mk_opcode "xstsqrtdp" (m_XX2 60 106) m_XX2BF_MASK m_PPCVSX m_PPCVLE;
  mk_opcode "xsrdpic" (m_XX2 60 107) m_XX2_MASK m_PPCVSX m_PPCVLE;
  mk_opcode "xsdivdp" (m_XX3 60 56) m_XX3_MASK m_PPCVSX m_PPCVLE;
  mk_opcode "xsmsubmdp" (m_XX3 60 57) m_XX3_MASK m_PPCVSX m_PPCVLE;
  mk_opcode "xxpermr" (m_XX3 60 58) m_XX3_MASK m_PPCVSX3 m_PPCVLE;
  mk_opcode "xscmpexpdp" (m_XX3 60 59) m_XX3BF_MASK m_PPCVSX3 m_PPCVLE;
  mk_opcode "xsrdpim" (m_XX2 60 121) m_XX2_MASK m_PPCVSX m_PPCVLE;
  mk_opcode "xstdivdp" (m_XX3 60 61) m_XX3BF_MASK m_PPCVSX m_PPCVLE;
  mk_opcode "xvaddsp" (m_XX3 60 64) m_XX3_MASK m_PPCVSX m_PPCVLE;
  mk_opcode "xvmaddasp" (m_XX3 60 65) m_XX3_MASK m_PPCVSX m_PPCVLE;
  mk_opcode "xvcmpeqsp" (m_XX3RC 60 67 0) m_XX3_MASK m_PPCVSX m_PPCVLE;
  mk_opcode "xvcmpeqsp." (m_XX3RC 60 67 1) m_XX3_MASK m_PPCVSX m_PPCVLE;
  mk_opcode "xvcvspuxws" (m_XX2 60 136) m_XX2_MASK m_PPCVSX m_PPCVLE;
  mk_opcode "xvrspi" (m_XX2 60 137) m_XX2_MASK m_PPCVSX m_PPCVLE;
  mk_opcode "xvrsqrtesp" (m_XX2 60 138) m_XX2_MASK m_PPCVSX m_PPCVLE;
  mk_opcode "xvsqrtsp" (m_XX2 60 139) m_XX2_MASK m_PPCVSX m_PPCVLE;
  mk_opcode "xvsubsp" (m_XX3 60 72) m_XX3_MASK m_PPCVSX m_PPCVLE;
  mk_opcode "xvmaddmsp" (m_XX3 60 73) m_XX3_MASK m_PPCVSX m_PPCVLE;
  mk_opcode "xvcmpgtsp" (m_XX3RC 60 75 0) m_XX3_MASK m_PPCVSX m_PPCVLE;
  mk_opcode "xvcmpgtsp." (m_XX3RC 60 75 1) m_XX3_MASK m_PPCVSX m_PPCVLE;
  mk_opcode "xvcvspsxws" (m_XX2 60 152) m_XX2_MASK m_PPCVSX m_PPCVLE;
  mk_opcode "xvrspiz" (m_XX2 60 153) m_XX2_MASK m_PPCVSX m_PPCVLE;
  mk_opcode "xvresp" (m_XX2 60 154) m_XX2_MASK m_PPCVSX m_PPCVLE;
  mk_opcode "xvmulsp" (m_XX3 60 80) m_XX3_MASK m_PPCVSX m_PPCVLE;
  mk_opcode "xvmsubasp" (m_XX3 60 81) m_XX3_MASK m_PPCVSX m_PPCVLE;
  mk_opcode "xxspltw" (m_XX2 60 164) m_XX2UIM_MASK m_PPCVSX m_PPCVLE;
  mk_opcode "xxextractuw" (m_XX2 60 165) m_XX2UIM4_MASK m_PPCVSX3 m_PPCVLE;
  mk_opcode "xvcmpgesp" (m_XX3RC 60 83 0) m_XX3_MASK m_PPCVSX m_PPCVLE;
  mk_opcode "xvcmpgesp." (m_XX3RC 60 83 1) m_XX3_MASK m_PPCVSX m_PPCVLE;
  mk_opcode "xvcvuxwsp" (m_XX2 60 168) m_XX2_MASK m_PPCVSX m_PPCVLE;
  mk_opcode "xvrspip" (m_XX2 60 169) m_XX2_MASK m_PPCVSX m_PPCVLE;
  mk_opcode "xvtsqrtsp" (m_XX2 60 170) m_XX2BF_MASK m_PPCVSX m_PPCVLE;
  mk_opcode "xvrspic" (m_XX2 60 171) m_XX2_MASK m_PPCVSX m_PPCVLE;
  mk_opcode "xvdivsp" (m_XX3 60 88) m_XX3_MASK m_PPCVSX m_PPCVLE;
  mk_opcode "xvmsubmsp" (m_XX3 60 89) m_XX3_MASK m_PPCVSX m_PPCVLE;
  mk_opcode "xxspltib" (m_X 60 360) (m_XX1_MASK .| (3 .<< 19)) m_PPCVSX3 m_PPCVLE;
  mk_opcode "xxinsertw" (m_XX2 60 181) m_XX2UIM4_MASK m_PPCVSX3 m_PPCVLE;
  mk_opcode "xvcvsxwsp" (m_XX2 60 184) m_XX2_MASK m_PPCVSX m_PPCVLE;
  mk_opcode "xvrspim" (m_XX2 60 185) m_XX2_MASK m_PPCVSX m_PPCVLE;
  mk_opcode "xvtdivsp" (m_XX3 60 93) m_XX3BF_MASK m_PPCVSX m_PPCVLE;
  mk_opcode "xvadddp" (m_XX3 60 96) m_XX3_MASK m_PPCVSX m_PPCVLE;
  mk_opcode "xvmaddadp" (m_XX3 60 97) m_XX3_MASK m_PPCVSX m_PPCVLE;
  mk_opcode "xvcmpeqdp" (m_XX3RC 60 99 0) m_XX3_MASK m_PPCVSX m_PPCVLE;
  mk_opcode "xvcmpeqdp." (m_XX3RC 60 99 1) m_XX3_MASK m_PPCVSX m_PPCVLE;
  mk_opcode "xvcvdpuxws" (m_XX2 60 200) m_XX2_MASK m_PPCVSX m_PPCVLE;
  mk_opcode "xvrdpi" (m_XX2 60 201) m_XX2_MASK m_PPCVSX m_PPCVLE;
  mk_opcode "xvrsqrtedp" (m_XX2 60 202) m_XX2_MASK m_PPCVSX m_PPCVLE;
  mk_opcode "xvsqrtdp" (m_XX2 60 203) m_XX2_MASK m_PPCVSX m_PPCVLE;
  mk_opcode "xvsubdp" (m_XX3 60 104) m_XX3_MASK m_PPCVSX m_PPCVLE;
  mk_opcode "xvmaddmdp" (m_XX3 60 105) m_XX3_MASK m_PPCVSX m_PPCVLE;
  mk_opcode "xvcmpgtdp" (m_XX3RC 60 107 0) m_XX3_MASK m_PPCVSX m_PPCVLE;
  mk_opcode "xvcmpgtdp." (m_XX3RC 60 107 1) m_XX3_MASK m_PPCVSX m_PPCVLE;
  mk_opcode "xvcvdpsxws" (m_XX2 60 216) m_XX2_MASK m_PPCVSX m_PPCVLE;
  mk_opcode "xvrdpiz" (m_XX2 60 217) m_XX2_MASK m_PPCVSX m_PPCVLE;
  mk_opcode "xvredp" (m_XX2 60 218) m_XX2_MASK m_PPCVSX m_PPCVLE;
  mk_opcode "xvmuldp" (m_XX3 60 112) m_XX3_MASK m_PPCVSX m_PPCVLE;
  mk_opcode "xvmsubadp" (m_XX3 60 113) m_XX3_MASK m_PPCVSX m_PPCVLE;
  mk_opcode "xvcmpgedp" (m_XX3RC 60 115 0) m_XX3_MASK m_PPCVSX m_PPCVLE;
  mk_opcode "xvcmpgedp." (m_XX3RC 60 115 1) m_XX3_MASK m_PPCVSX m_PPCVLE;
  mk_opcode "xvcvuxwdp" (m_XX2 60 232) m_XX2_MASK m_PPCVSX m_PPCVLE;
  mk_opcode "xvrdpip" (m_XX2 60 233) m_XX2_MASK m_PPCVSX m_PPCVLE;
  mk_opcode "xvtsqrtdp" (m_XX2 60 234) m_XX2BF_MASK m_PPCVSX m_PPCVLE;
  mk_opcode "xvrdpic" (m_XX2 60 235) m_XX2_MASK m_PPCVSX m_PPCVLE;
  mk_opcode "xvdivdp" (m_XX3 60 120) m_XX3_MASK m_PPCVSX m_PPCVLE;
  mk_opcode "xvmsubmdp" (m_XX3 60 121) m_XX3_MASK m_PPCVSX m_PPCVLE;
  mk_opcode "xvcvsxwdp" (m_XX2 60 248) m_XX2_MASK m_PPCVSX m_PPCVLE;
  mk_opcode "xvrdpim" (m_XX2 60 249) m_XX2_MASK m_PPCVSX m_PPCVLE;
  mk_opcode "xvtdivdp" (m_XX3 60 125) m_XX3BF_MASK m_PPCVSX m_PPCVLE;
  mk_opcode "xsmaxcdp" (m_XX3 60 128) m_XX3_MASK m_PPCVSX3 m_PPCVLE].
(* qtlib/ppc-opc.c:7183-7285 *)
Definition opcodes_31 : list opcode := [
  mk_opcode "xsnmaddasp" (m_XX3 60 129) m_XX3_MASK m_PPCVSX2 m_PPCVLE;
  mk_opcode "xxland" (m_XX3 60 130) m_XX3_MASK m_PPCVSX m_PPCVLE;
  mk_opcode "xscvdpsp" (m_XX2 60 265) m_XX2_MASK m_PPCVSX m_PPCVLE;
  mk_opcode "xscvdpspn" (m_XX2 60 267) m_XX2_MASK m_PPCVSX2 m_PPCVLE;
  mk_opcode "xsmincdp" (m_XX3 60 136) m_XX3_MASK m_PPCVSX3 m_PPCVLE;
  mk_opcode "xsnmaddmsp" (m_XX3 60 137) m_XX3_MASK m_PPCVSX2 m_PPCVLE;
  mk_opcode "xxlandc" (m_XX3 60 138) m_XX3_MASK m_PPCVSX m_PPCVLE;
  mk_opcode "xsrsp" (m_XX2 60 281) m_XX2_MASK m_PPCVSX2 m_PPCVLE;
  mk_opcode "xsmaxjdp" (m_XX3 60 144) m_XX3_MASK m_PPCVSX3 m_PPCVLE;
  mk_opcode "xsnmsubasp" (m_XX3 60 145) m_XX3_MASK m_PPCVSX2 m_PPCVLE;
  mk_opcode "xxlor" (m_XX3 60 146) m_XX3_MASK m_PPCVSX m_PPCVLE;
  mk_opcode "xscvuxdsp" (m_XX2 60 296) m_XX2_MASK m_PPCVSX2 m_PPCVLE;
  mk_opcode "xststdcsp" (m_XX2 60 298) m_XX2BFD_MASK m_PPCVSX3 m_PPCVLE;
  mk_opcode "xsminjdp" (m_XX3 60 152) m_XX3_MASK m_PPCVSX3 m_PPCVLE;
  mk_opcode "xsnmsubmsp" (m_XX3 60 153) m_XX3_MASK m_PPCVSX2 m_PPCVLE;
  mk_opcode "xxlxor" (m_XX3 60 154) m_XX3_MASK m_PPCVSX m_PPCVLE;
  mk_opcode "xscvsxdsp" (m_XX2 60 312) m_XX2_MASK m_PPCVSX2 m_PPCVLE;
  mk_opcode "xsmaxdp" (m_XX3 60 160) m_XX3_MASK m_PPCVSX m_PPCVLE;
  mk_opcode "xsnmaddadp" (m_XX3 60 161) m_XX3_MASK m_PPCVSX m_PPCVLE;
  mk_opcode "xxlnor" (m_XX3 60 162) m_XX3_MASK m_PPCVSX m_PPCVLE;
  mk_opcode "xscvdpuxds" (m_XX2 60 328) m_XX2_MASK m_PPCVSX m_PPCVLE;
  mk_opcode "xscvspdp" (m_XX2 60 329) m_XX2_MASK m_PPCVSX m_PPCVLE;
  mk_opcode "xscvspdpn" (m_XX2 60 331) m_XX2_MASK m_PPCVSX2 m_PPCVLE;
  mk_opcode "xsmindp" (m_XX3 60 168) m_XX3_MASK m_PPCVSX m_PPCVLE;
  mk_opcode "xsnmaddmdp" (m_XX3 60 169) m_XX3_MASK m_PPCVSX m_PPCVLE;
  mk_opcode "xxlorc" (m_XX3 60 170) m_XX3_MASK m_PPCVSX2 m_PPCVLE;
  mk_opcode "xscvdpsxds" (m_XX2 60 344) m_XX2_MASK m_PPCVSX m_PPCVLE;
  mk_opcode "xsabsdp" (m_XX2 60 345) m_XX2_MASK m_PPCVSX m_PPCVLE;
  mk_opcode "xsxexpdp" (m_XX2VA 60 347 0) (m_XX2_MASK .| 1) m_PPCVSX3 m_PPCVLE;
  mk_opcode "xsxsigdp" (m_XX2VA 60 347 1) (m_XX2_MASK .| 1) m_PPCVSX3 m_PPCVLE;
  mk_opcode "xscvhpdp" (m_XX2VA 60 347 16) m_XX2_MASK m_PPCVSX3 m_PPCVLE;
  mk_opcode "xscvdphp" (m_XX2VA 60 347 17) m_XX2_MASK m_PPCVSX3 m_PPCVLE;
  mk_opcode "xscpsgndp" (m_XX3 60 176) m_XX3_MASK m_PPCVSX m_PPCVLE;
  mk_opcode "xsnmsubadp" (m_XX3 60 177) m_XX3_MASK m_PPCVSX m_PPCVLE;
  mk_opcode "xxlnand" (m_XX3 60 178) m_XX3_MASK m_PPCVSX2 m_PPCVLE;
  mk_opcode "xscvuxddp" (m_XX2 60 360) m_XX2_MASK m_PPCVSX m_PPCVLE;
  mk_opcode "xsnabsdp" (m_XX2 60 361) m_XX2_MASK m_PPCVSX m_PPCVLE;
  mk_opcode "xststdcdp" (m_XX2 60 362) m_XX2BFD_MASK m_PPCVSX3 m_PPCVLE;
  mk_opcode "xsnmsubmdp" (m_XX3 60 185) m_XX3_MASK m_PPCVSX m_PPCVLE;
  mk_opcode "xxleqv" (m_XX3 60 186) m_XX3_MASK m_PPCVSX2 m_PPCVLE;
  mk_opcode "xscvsxddp" (m_XX2 60 376) m_XX2_MASK m_PPCVSX m_PPCVLE;
  mk_opcode "xsnegdp" (m_XX2 60 377) m_XX2_MASK m_PPCVSX m_PPCVLE;
  mk_opcode "xvmaxsp" (m_XX3 60 192) m_XX3_MASK m_PPCVSX m_PPCVLE;
  mk_opcode "xvnmaddasp" (m_XX3 60 193) m_XX3_MASK m_PPCVSX m_PPCVLE;
  mk_opcode "xvcvspuxds" (m_XX2 60 392) m_XX2_MASK m_PPCVSX m_PPCVLE;
  mk_opcode "xvcvdpsp" (m_XX2 60 393) m_XX2_MASK m_PPCVSX m_PPCVLE;
  mk_opcode "xvminsp" (m_XX3 60 200) m_XX3_MASK m_PPCVSX m_PPCVLE;
  mk_opcode "xvnmaddmsp" (m_XX3 60 201) m_XX3_MASK m_PPCVSX m_PPCVLE;
  mk_opcode "xvcvspsxds" (m_XX2 60 408) m_XX2_MASK m_PPCVSX m_PPCVLE;
  mk_opcode "xvabssp" (m_XX2 60 409) m_XX2_MASK m_PPCVSX m_PPCVLE;
  mk_opcode "xvmovsp" (m_XX3 60 208) m_XX3_MASK m_PPCVSX m_PPCVLE;
  mk_opcode "xvcpsgnsp" (m_XX3 60 208) m_XX3_MASK m_PPCVSX m_PPCVLE;
  mk_opcode "xvnmsubasp" (m_XX3 60 209) m_XX3_MASK m_PPCVSX m_PPCVLE;
  mk_opcode "xvcvuxdsp" (m_XX2 60 424) m_XX2_MASK m_PPCVSX m_PPCVLE;
  mk_opcode "xvnabssp" (m_XX2 60 425) m_XX2_MASK m_PPCVSX m_PPCVLE;
  mk_opcode "xvtstdcsp" (m_XX2 60 426) m_XX2DCMXS_MASK m_PPCVSX3 m_PPCVLE;
  mk_opcode "xviexpsp" (m_XX3 60 216) m_XX3_MASK m_PPCVSX3 m_PPCVLE;
  mk_opcode "xvnmsubmsp" (m_XX3 60 217) m_XX3_MASK m_PPCVSX m_PPCVLE;
  mk_opcode "xvcvsxdsp" (m_XX2 60 440) m_XX2_MASK m_PPCVSX m_PPCVLE;
  mk_opcode "xvnegsp" (m_XX2 60 441) m_XX2_MASK m_PPCVSX m_PPCVLE;
  mk_opcode "xvmaxdp" (m_XX3 60 224) m_XX3_MASK m_PPCVSX m_PPCVLE;
  mk_opcode "xvnmaddadp" (m_XX3 60 225) m_XX3_MASK m_PPCVSX m_PPCVLE;
  mk_opcode "xvcvdpuxds" (m_XX2 60 456) m_XX2_MASK m_PPCVSX m_PPCVLE;
  mk_opcode "xvcvspdp" (m_XX2 60 457) m_XX2_MASK m_PPCVSX m_PPCVLE;
  mk_opcode "xsiexpdp" (m_X 60 918) m_XX1_MASK m_PPCVSX3 m_PPCVLE;
  mk_opcode "xvmindp" (m_XX3 60 232) m_XX3_MASK m_PPCVSX m_PPCVLE;
  mk_opcode "xvnmaddmdp" (m_XX3 60 233) m_XX3_MASK m_PPCVSX m_PPCVLE;
  mk_opcode "xvcvdpsxds" (m_XX2 60 472) m_XX2_MASK m_PPCVSX m_PPCVLE;
  mk_opcode "xvabsdp" (m_XX2 60 473) m_XX2_MASK m_PPCVSX m_PPCVLE;
  mk_opcode "xvxexpdp" (m_XX2VA 60 475 0) m_XX2_MASK m_PPCVSX3 m_PPCVLE;
  mk_opcode "xvxsigdp" (m_XX2VA 60 475 1) m_XX2_MASK m_PPCVSX3 m_PPCVLE;
  mk_opcode "xxbrh" (m_XX2VA 60 475 7) m_XX2_MASK m_PPCVSX3 m_PPCVLE;
  mk_opcode "xvxexpsp" (m_XX2VA 60 475 8) m_XX2_MASK m_PPCVSX3 m_PPCVLE;
  mk_opcode "xvxsigsp" (m_XX2VA 60 475 9) m_XX2_MASK m_PPCVSX3 m_PPCVLE;
  mk_opcode "xxbrw" (m_XX2VA 60 475 15) m_XX2_MASK m_PPCVSX3 m_PPCVLE;
  mk_opcode "xxbrd" (m_XX2VA 60 475 23) m_XX2_MASK m_PPCVSX3 m_PPCVLE;
  mk_opcode "xvcvhpsp" (m_XX2VA 60 475 24) m_XX2_MASK m_PPCVSX3 m_PPCVLE;
  mk_opcode "xvcvsphp" (m_XX2VA 60 475 25) m_XX2_MASK m_PPCVSX3 m_PPCVLE;
  mk_opcode "xxbrq" (m_XX2VA 60 475 31) m_XX2_MASK m_PPCVSX3 m_PPCVLE;
  mk_opcode "xvmovdp" (m_XX3 60 240) m_XX3_MASK m_PPCVSX m_PPCVLE;
  mk_opcode "xvcpsgndp" (m_XX3 60 240) m_XX3_MASK m_PPCVSX m_PPCVLE;
  mk_opcode "xvnmsubadp" (m_XX3 60 241) m_XX3_MASK m_PPCVSX m_PPCVLE;
  mk_opcode "xvcvuxddp" (m_XX2 60 488) m_XX2_MASK m_PPCVSX m_PPCVLE;
  mk_opcode "xvnabsdp" (m_XX2 60 489) m_XX2_MASK m_PPCVSX m_PPCVLE;
  mk_opcode "xvtstdcdp" (m_XX2 60 490) m_XX2DCMXS_MASK m_PPCVSX3 m_PPCVLE;
  mk_opcode "xviexpdp" (m_XX3 60 248) m_XX3_MASK m_PPCVSX3 m_PPCVLE;
  mk_opcode "xvnmsubmdp" (m_XX3 60 249) m_XX3_MASK m_PPCVSX m_PPCVLE;
  mk_opcode "xvcvsxddp" (m_XX2 60 504) m_XX2_MASK m_PPCVSX m_PPCVLE;
  mk_opcode "xvnegdp" (m_XX2 60 505) m_XX2_MASK m_PPCVSX m_PPCVLE;
  mk_opcode "psq_st" (m_OP 60) m_OP_MASK m_PPCPS m_PPCVLE;
  mk_opcode "stfq" (m_OP 60) m_OP_MASK m_POWER2 m_PPCVLE;
  mk_opcode "lxv" (m_DQX 61 1) m_DQX_MASK m_PPCVSX3 m_PPCVLE;
  mk_opcode "stxv" (m_DQX 61 5) m_DQX_MASK m_PPCVSX3 m_PPCVLE;
  mk_opcode "stxsd" (m_DSO 61 2) m_DS_MASK m_PPCVSX3 m_PPCVLE;
  mk_opcode "stxssp" (m_DSO 61 3) m_DS_MASK m_PPCVSX3 m_PPCVLE;
  mk_opcode "stfdp" (m_OP 61) (m_OP_MASK .| m_Q_MASK) m_POWER6 (m_POWER7 .| m_PPCVLE);
  mk_opcode "psq_stu" (m_OP 61) m_OP_MASK m_PPCPS m_PPCVLE;
  mk_opcode "stfqu" (m_OP 61) m_OP_MASK m_POWER2 m_PPCVLE;
  mk_opcode "std" (m_DSO 62 0) m_DS_MASK m_PPC64 m_PPCVLE;
  mk_opcode "stdu" (m_DSO 62 1) m_DS_MASK m_PPC64 m_PPCVLE].
(* qtlib/ppc-opc.c:7286-7426 *)
Definition opcodes_32 : list opcode := [
  mk_opcode "stq" (m_DSO 62 2) (m_DS_MASK .| m_Q_MASK) m_POWER4 (m_PPC476 .| m_PPCVLE);
  mk_opcode "fcmpu" (m_X 63 0) m_XBF_MASK m_COM (m_PPCEFS .| m_PPCVLE);
  mk_opcode "daddq" (m_XRC 63 2 0) (m_X_MASK .| m_Q_MASK) m_POWER6 m_PPCVLE;
  mk_opcode "daddq." (m_XRC 63 2 1) (m_X_MASK .| m_Q_MASK) m_POWER6 m_PPCVLE;
  mk_opcode "dquaq" (m_ZRC 63 3 0) (m_Z2_MASK .| m_Q_MASK) m_POWER6 m_PPCVLE;
  mk_opcode "dquaq." (m_ZRC 63 3 1) (m_Z2_MASK .| m_Q_MASK) m_POWER6 m_PPCVLE;
  mk_opcode "xsaddqp" (m_XRC 63 4 0) m_X_MASK m_PPCVSX3 m_PPCVLE;
  mk_opcode "xsaddqpo" (m_XRC 63 4 1) m_X_MASK m_PPCVSX3 m_PPCVLE;
  mk_opcode "xsrqpi" (m_ZRC 63 5 0) m_Z2_MASK m_PPCVSX3 m_PPCVLE;
  mk_opcode "xsrqpix" (m_ZRC 63 5 1) m_Z2_MASK m_PPCVSX3 m_PPCVLE;
  mk_opcode "fcpsgn" (m_XRC 63 8 0) m_X_MASK ((m_POWER6 .| m_PPCA2) .| m_PPC476) m_PPCVLE;
  mk_opcode "fcpsgn." (m_XRC 63 8 1) m_X_MASK ((m_POWER6 .| m_PPCA2) .| m_PPC476) m_PPCVLE;
  mk_opcode "frsp" (m_XRC 63 12 0) m_XRA_MASK m_COM (m_PPCEFS .| m_PPCVLE);
  mk_opcode "frsp." (m_XRC 63 12 1) m_XRA_MASK m_COM (m_PPCEFS .| m_PPCVLE);
  mk_opcode "fctiw" (m_XRC 63 14 0) m_XRA_MASK m_PPCCOM (m_PPCEFS .| m_PPCVLE);
  mk_opcode "fcir" (m_XRC 63 14 0) m_XRA_MASK m_PWR2COM m_PPCVLE;
  mk_opcode "fctiw." (m_XRC 63 14 1) m_XRA_MASK m_PPCCOM (m_PPCEFS .| m_PPCVLE);
  mk_opcode "fcir." (m_XRC 63 14 1) m_XRA_MASK m_PWR2COM m_PPCVLE;
  mk_opcode "fctiwz" (m_XRC 63 15 0) m_XRA_MASK m_PPCCOM (m_PPCEFS .| m_PPCVLE);
  mk_opcode "fcirz" (m_XRC 63 15 0) m_XRA_MASK m_PWR2COM m_PPCVLE;
  mk_opcode "fctiwz." (m_XRC 63 15 1) m_XRA_MASK m_PPCCOM (m_PPCEFS .| m_PPCVLE);
  mk_opcode "fcirz." (m_XRC 63 15 1) m_XRA_MASK m_PWR2COM m_PPCVLE;
  mk_opcode "fdiv" (m_A 63 18 0) m_AFRC_MASK m_PPCCOM (m_PPCEFS .| m_PPCVLE);
  mk_opcode "fd" (m_A 63 18 0) m_AFRC_MASK m_PWRCOM m_PPCVLE;
  mk_opcode "fdiv." (m_A 63 18 1) m_AFRC_MASK m_PPCCOM (m_PPCEFS .| m_PPCVLE);
  mk_opcode "fd." (m_A 63 18 1) m_AFRC_MASK m_PWRCOM m_PPCVLE;
  mk_opcode "fsub" (m_A 63 20 0) m_AFRC_MASK m_PPCCOM (m_PPCEFS .| m_PPCVLE);
  mk_opcode "fs" (m_A 63 20 0) m_AFRC_MASK m_PWRCOM m_PPCVLE;
  mk_opcode "fsub." (m_A 63 20 1) m_AFRC_MASK m_PPCCOM (m_PPCEFS .| m_PPCVLE);
  mk_opcode "fs." (m_A 63 20 1) m_AFRC_MASK m_PWRCOM m_PPCVLE;
  mk_opcode "fadd" (m_A 63 21 0) m_AFRC_MASK m_PPCCOM (m_PPCEFS .| m_PPCVLE);
  mk_opcode "fa" (m_A 63 21 0) m_AFRC_MASK m_PWRCOM m_PPCVLE;
  mk_opcode "fadd." (m_A 63 21 1) m_AFRC_MASK m_PPCCOM (m_PPCEFS .| m_PPCVLE);
  mk_opcode "fa." (m_A 63 21 1) m_AFRC_MASK m_PWRCOM m_PPCVLE;
  mk_opcode "fsqrt" (m_A 63 22 0) m_AFRAFRC_MASK m_PPCPWR2 (m_TITAN .| m_PPCVLE);
  mk_opcode "fsqrt." (m_A 63 22 1) m_AFRAFRC_MASK m_PPCPWR2 (m_TITAN .| m_PPCVLE);
  mk_opcode "fsel" (m_A 63 23 0) m_A_MASK m_PPC (m_PPCEFS .| m_PPCVLE);
  mk_opcode "fsel." (m_A 63 23 1) m_A_MASK m_PPC (m_PPCEFS .| m_PPCVLE);
  mk_opcode "fre" (m_A 63 24 0) m_AFRAFRC_MASK m_POWER7 m_PPCVLE;
  mk_opcode "fre" (m_A 63 24 0) m_AFRALFRC_MASK m_POWER5 (m_POWER7 .| m_PPCVLE);
  mk_opcode "fre." (m_A 63 24 1) m_AFRAFRC_MASK m_POWER7 m_PPCVLE;
  mk_opcode "fre." (m_A 63 24 1) m_AFRALFRC_MASK m_POWER5 (m_POWER7 .| m_PPCVLE);
  mk_opcode "fmul" (m_A 63 25 0) m_AFRB_MASK m_PPCCOM (m_PPCEFS .| m_PPCVLE);
  mk_opcode "fm" (m_A 63 25 0) m_AFRB_MASK m_PWRCOM (m_PPCVLE .| m_PPCVLE);
  mk_opcode "fmul." (m_A 63 25 1) m_AFRB_MASK m_PPCCOM (m_PPCEFS .| m_PPCVLE);
  mk_opcode "fm." (m_A 63 25 1) m_AFRB_MASK m_PWRCOM (m_PPCVLE .| m_PPCVLE);
  mk_opcode "frsqrte" (m_A 63 26 0) m_AFRAFRC_MASK m_POWER7 m_PPCVLE;
  mk_opcode "frsqrte" (m_A 63 26 0) m_AFRALFRC_MASK m_PPC (m_POWER7 .| m_PPCVLE);
  mk_opcode "frsqrte." (m_A 63 26 1) m_AFRAFRC_MASK m_POWER7 m_PPCVLE;
  mk_opcode "frsqrte." (m_A 63 26 1) m_AFRALFRC_MASK m_PPC (m_POWER7 .| m_PPCVLE);
  mk_opcode "fmsub" (m_A 63 28 0) m_A_MASK m_PPCCOM (m_PPCEFS .| m_PPCVLE);
  mk_opcode "fms" (m_A 63 28 0) m_A_MASK m_PWRCOM m_PPCVLE;
  mk_opcode "fmsub." (m_A 63 28 1) m_A_MASK m_PPCCOM (m_PPCEFS .| m_PPCVLE);
  mk_opcode "fms." (m_A 63 28 1) m_A_MASK m_PWRCOM m_PPCVLE;
  mk_opcode "fmadd" (m_A 63 29 0) m_A_MASK m_PPCCOM (m_PPCEFS .| m_PPCVLE);
  mk_opcode "fma" (m_A 63 29 0) m_A_MASK m_PWRCOM m_PPCVLE;
  mk_opcode "fmadd." (m_A 63 29 1) m_A_MASK m_PPCCOM (m_PPCEFS .| m_PPCVLE);
  mk_opcode "fma." (m_A 63 29 1) m_A_MASK m_PWRCOM m_PPCVLE;
  mk_opcode "fnmsub" (m_A 63 30 0) m_A_MASK m_PPCCOM (m_PPCEFS .| m_PPCVLE);
  mk_opcode "fnms" (m_A 63 30 0) m_A_MASK m_PWRCOM m_PPCVLE;
  mk_opcode "fnmsub." (m_A 63 30 1) m_A_MASK m_PPCCOM (m_PPCEFS .| m_PPCVLE);
  mk_opcode "fnms." (m_A 63 30 1) m_A_MASK m_PWRCOM m_PPCVLE;
  mk_opcode "fnmadd" (m_A 63 31 0) m_A_MASK m_PPCCOM (m_PPCEFS .| m_PPCVLE);
  mk_opcode "fnma" (m_A 63 31 0) m_A_MASK m_PWRCOM m_PPCVLE;
  mk_opcode "fnmadd." (m_A 63 31 1) m_A_MASK m_PPCCOM (m_PPCEFS .| m_PPCVLE);
  mk_opcode "fnma." (m_A 63 31 1) m_A_MASK m_PWRCOM m_PPCVLE;
  mk_opcode "fcmpo" (m_X 63 32) m_XBF_MASK m_COM (m_PPCEFS .| m_PPCVLE);
  mk_opcode "dmulq" (m_XRC 63 34 0) (m_X_MASK .| m_Q_MASK) m_POWER6 m_PPCVLE;
  mk_opcode "dmulq." (m_XRC 63 34 1) (m_X_MASK .| m_Q_MASK) m_POWER6 m_PPCVLE;
  mk_opcode "drrndq" (m_ZRC 63 35 0) (m_Z2_MASK .| m_Q_MASK) m_POWER6 m_PPCVLE;
  mk_opcode "drrndq." (m_ZRC 63 35 1) (m_Z2_MASK .| m_Q_MASK) m_POWER6 m_PPCVLE;
  mk_opcode "xsmulqp" (m_XRC 63 36 0) m_X_MASK m_PPCVSX3 m_PPCVLE;
  mk_opcode "xsmulqpo" (m_XRC 63 36 1) m_X_MASK m_PPCVSX3 m_PPCVLE;
  mk_opcode "xsrqpxp" (m_Z 63 37) m_Z2_MASK m_PPCVSX3 m_PPCVLE;
  mk_opcode "mtfsb1" (m_XRC 63 38 0) m_XRARB_MASK m_COM m_PPCVLE;
  mk_opcode "mtfsb1." (m_XRC 63 38 1) m_XRARB_MASK m_COM m_PPCVLE;
  mk_opcode "fneg" (m_XRC 63 40 0) m_XRA_MASK m_COM (m_PPCEFS .| m_PPCVLE);
  mk_opcode "fneg." (m_XRC 63 40 1) m_XRA_MASK m_COM (m_PPCEFS .| m_PPCVLE);
  mk_opcode "mcrfs" (m_X 63 64) ((m_XRB_MASK .| (3 .<< 21)) .| (3 .<< 16)) m_COM m_PPCVLE;
  mk_opcode "dscliq" (m_ZRC 63 66 0) (m_Z_MASK .| m_Q_MASK) m_POWER6 m_PPCVLE;
  mk_opcode "dscliq." (m_ZRC 63 66 1) (m_Z_MASK .| m_Q_MASK) m_POWER6 m_PPCVLE;
  mk_opcode "dquaiq" (m_ZRC 63 67 0) (m_Z2_MASK .| m_Q_MASK) m_POWER6 m_PPCVLE;
  mk_opcode "dquaiq." (m_ZRC 63 67 1) (m_Z2_MASK .| m_Q_MASK) m_POWER6 m_PPCVLE;
  mk_opcode "mtfsb0" (m_XRC 63 70 0) m_XRARB_MASK m_COM m_PPCVLE;
  mk_opcode "mtfsb0." (m_XRC 63 70 1) m_XRARB_MASK m_COM m_PPCVLE;
  mk_opcode "fmr" (m_XRC 63 72 0) m_XRA_MASK m_COM (m_PPCEFS .| m_PPCVLE);
  mk_opcode "fmr." (m_XRC 63 72 1) m_XRA_MASK m_COM (m_PPCEFS .| m_PPCVLE);
  mk_opcode "dscriq" (m_ZRC 63 98 0) (m_Z_MASK .| m_Q_MASK) m_POWER6 m_PPCVLE;
  mk_opcode "dscriq." (m_ZRC 63 98 1) (m_Z_MASK .| m_Q_MASK) m_POWER6 m_PPCVLE;
  mk_opcode "drintxq" (m_ZRC 63 99 0) (m_Z2_MASK .| m_Q_MASK) m_POWER6 m_PPCVLE;
  mk_opcode "drintxq." (m_ZRC 63 99 1) (m_Z2_MASK .| m_Q_MASK) m_POWER6 m_PPCVLE;
  mk_opcode "xscpsgnqp" (m_X 63 100) m_X_MASK m_PPCVSX3 m_PPCVLE;
  mk_opcode "ftdiv" (m_X 63 128) m_XBF_MASK m_POWER7 m_PPCVLE;
  mk_opcode "dcmpoq" (m_X 63 130) m_X_MASK m_POWER6 m_PPCVLE;
  mk_opcode "xscmpoqp" (m_X 63 132) m_XBF_MASK m_PPCVSX3 m_PPCVLE;
  mk_opcode "mtfsfi" (m_XRC 63 134 0) ((m_XWRA_MASK .| (3 .<< 21)) .| (1 .<< 11)) ((m_POWER6 .| m_PPCA2) .| m_PPC476) m_PPCVLE;
  mk_opcode "mtfsfi" (m_XRC 63 134 0) ((m_XRA_MASK .| (3 .<< 21)) .| (1 .<< 11)) m_COM (((m_POWER6 .| m_PPCA2) .| m_PPC476) .| m_PPCVLE);
  mk_opcode "mtfsfi." (m_XRC 63 134 1) ((m_XWRA_MASK .| (3 .<< 21)) .| (1 .<< 11)) ((m_POWER6 .| m_PPCA2) .| m_PPC476) m_PPCVLE;
  mk_opcode "mtfsfi." (m_XRC 63 134 1) ((m_XRA_MASK .| (3 .<< 21)) .| (1 .<< 11)) m_COM (((m_POWER6 .| m_PPCA2) .| m_PPC476) .| m_PPCVLE);
  mk_opcode "fnabs" (m_XRC 63 136 0) m_XRA_MASK m_COM (m_PPCEFS .| m_PPCVLE)].
(* qtlib/ppc-opc.c:7427-7566 *)
Definition opcodes_33 : list opcode := [
  mk_opcode "fnabs." (m_XRC 63 136 1) m_XRA_MASK m_COM (m_PPCEFS .| m_PPCVLE);
  mk_opcode "fctiwu" (m_XRC 63 142 0) m_XRA_MASK m_POWER7 m_PPCVLE;
  mk_opcode "fctiwu." (m_XRC 63 142 1) m_XRA_MASK m_POWER7 m_PPCVLE;
  mk_opcode "fctiwuz" (m_XRC 63 143 0) m_XRA_MASK m_POWER7 m_PPCVLE;
  mk_opcode "fctiwuz." (m_XRC 63 143 1) m_XRA_MASK m_POWER7 m_PPCVLE;
  mk_opcode "ftsqrt" (m_X 63 160) (m_XBF_MASK .| m_FRA_MASK) m_POWER7 m_PPCVLE;
  mk_opcode "dtstexq" (m_X 63 162) m_X_MASK m_POWER6 m_PPCVLE;
  mk_opcode "xscmpexpqp" (m_X 63 164) m_XBF_MASK m_PPCVSX3 m_PPCVLE;
  mk_opcode "dtstdcq" (m_Z 63 194) m_Z_MASK m_POWER6 m_PPCVLE;
  mk_opcode "dtstdgq" (m_Z 63 226) m_Z_MASK m_POWER6 m_PPCVLE;
  mk_opcode "drintnq" (m_ZRC 63 227 0) (m_Z2_MASK .| m_Q_MASK) m_POWER6 m_PPCVLE;
  mk_opcode "drintnq." (m_ZRC 63 227 1) (m_Z2_MASK .| m_Q_MASK) m_POWER6 m_PPCVLE;
  mk_opcode "dctqpq" (m_XRC 63 258 0) (m_X_MASK .| m_Q_MASK) m_POWER6 m_PPCVLE;
  mk_opcode "dctqpq." (m_XRC 63 258 1) (m_X_MASK .| m_Q_MASK) m_POWER6 m_PPCVLE;
  mk_opcode "fabs" (m_XRC 63 264 0) m_XRA_MASK m_COM (m_PPCEFS .| m_PPCVLE);
  mk_opcode "fabs." (m_XRC 63 264 1) m_XRA_MASK m_COM (m_PPCEFS .| m_PPCVLE);
  mk_opcode "dctfixq" (m_XRC 63 290 0) m_X_MASK m_POWER6 m_PPCVLE;
  mk_opcode "dctfixq." (m_XRC 63 290 1) m_X_MASK m_POWER6 m_PPCVLE;
  mk_opcode "ddedpdq" (m_XRC 63 322 0) (m_X_MASK .| m_Q_MASK) m_POWER6 m_PPCVLE;
  mk_opcode "ddedpdq." (m_XRC 63 322 1) (m_X_MASK .| m_Q_MASK) m_POWER6 m_PPCVLE;
  mk_opcode "dxexq" (m_XRC 63 354 0) m_X_MASK m_POWER6 m_PPCVLE;
  mk_opcode "dxexq." (m_XRC 63 354 1) m_X_MASK m_POWER6 m_PPCVLE;
  mk_opcode "xsmaddqp" (m_XRC 63 388 0) m_X_MASK m_PPCVSX3 m_PPCVLE;
  mk_opcode "xsmaddqpo" (m_XRC 63 388 1) m_X_MASK m_PPCVSX3 m_PPCVLE;
  mk_opcode "frin" (m_XRC 63 392 0) m_XRA_MASK m_POWER5 m_PPCVLE;
  mk_opcode "frin." (m_XRC 63 392 1) m_XRA_MASK m_POWER5 m_PPCVLE;
  mk_opcode "xsmsubqp" (m_XRC 63 420 0) m_X_MASK m_PPCVSX3 m_PPCVLE;
  mk_opcode "xsmsubqpo" (m_XRC 63 420 1) m_X_MASK m_PPCVSX3 m_PPCVLE;
  mk_opcode "friz" (m_XRC 63 424 0) m_XRA_MASK m_POWER5 m_PPCVLE;
  mk_opcode "friz." (m_XRC 63 424 1) m_XRA_MASK m_POWER5 m_PPCVLE;
  mk_opcode "xsnmaddqp" (m_XRC 63 452 0) m_X_MASK m_PPCVSX3 m_PPCVLE;
  mk_opcode "xsnmaddqpo" (m_XRC 63 452 1) m_X_MASK m_PPCVSX3 m_PPCVLE;
  mk_opcode "frip" (m_XRC 63 456 0) m_XRA_MASK m_POWER5 m_PPCVLE;
  mk_opcode "frip." (m_XRC 63 456 1) m_XRA_MASK m_POWER5 m_PPCVLE;
  mk_opcode "xsnmsubqp" (m_XRC 63 484 0) m_X_MASK m_PPCVSX3 m_PPCVLE;
  mk_opcode "xsnmsubqpo" (m_XRC 63 484 1) m_X_MASK m_PPCVSX3 m_PPCVLE;
  mk_opcode "frim" (m_XRC 63 488 0) m_XRA_MASK m_POWER5 m_PPCVLE;
  mk_opcode "frim." (m_XRC 63 488 1) m_XRA_MASK m_POWER5 m_PPCVLE;
  mk_opcode "dsubq" (m_XRC 63 514 0) (m_X_MASK .| m_Q_MASK) m_POWER6 m_PPCVLE;
  mk_opcode "dsubq." (m_XRC 63 514 1) (m_X_MASK .| m_Q_MASK) m_POWER6 m_PPCVLE;
  mk_opcode "xssubqp" (m_XRC 63 516 0) m_X_MASK m_PPCVSX3 m_PPCVLE;
  mk_opcode "xssubqpo" (m_XRC 63 516 1) m_X_MASK m_PPCVSX3 m_PPCVLE;
  mk_opcode "ddivq" (m_XRC 63 546 0) (m_X_MASK .| m_Q_MASK) m_POWER6 m_PPCVLE;
  mk_opcode "ddivq." (m_XRC 63 546 1) (m_X_MASK .| m_Q_MASK) m_POWER6 m_PPCVLE;
  mk_opcode "xsdivqp" (m_XRC 63 548 0) m_X_MASK m_PPCVSX3 m_PPCVLE;
  mk_opcode "xsdivqpo" (m_XRC 63 548 1) m_X_MASK m_PPCVSX3 m_PPCVLE;
  mk_opcode "mffs" (m_XRC 63 583 0) m_XRARB_MASK m_COM (m_PPCEFS .| m_PPCVLE);
  mk_opcode "mffs." (m_XRC 63 583 1) m_XRARB_MASK m_COM (m_PPCEFS .| m_PPCVLE);
  mk_opcode "mffsce" (m_XMMF 63 583 0 1) (m_XMMF_MASK .| m_RB_MASK) m_POWER9 m_PPCVLE;
  mk_opcode "mffscdrn" (m_XMMF 63 583 2 4) m_XMMF_MASK m_POWER9 m_PPCVLE;
  mk_opcode "mffscdrni" (m_XMMF 63 583 2 5) (m_XMMF_MASK .| (3 .<< 14)) m_POWER9 m_PPCVLE;
  mk_opcode "mffscrn" (m_XMMF 63 583 2 6) m_XMMF_MASK m_POWER9 m_PPCVLE;
  mk_opcode "mffscrni" (m_XMMF 63 583 2 7) (m_XMMF_MASK .| (7 .<< 13)) m_POWER9 m_PPCVLE;
  mk_opcode "mffsl" (m_XMMF 63 583 3 0) (m_XMMF_MASK .| m_RB_MASK) m_POWER9 m_PPCVLE;
  mk_opcode "dcmpuq" (m_X 63 642) m_X_MASK m_POWER6 m_PPCVLE;
  mk_opcode "xscmpuqp" (m_X 63 644) m_XBF_MASK m_PPCVSX3 m_PPCVLE;
  mk_opcode "dtstsfq" (m_X 63 674) m_X_MASK m_POWER6 m_PPCVLE;
  mk_opcode "dtstsfiq" (m_X 63 675) (m_X_MASK .| (1 .<< 22)) m_POWER9 m_PPCVLE;
  mk_opcode "xststdcqp" (m_X 63 708) m_X_MASK m_PPCVSX3 m_PPCVLE;
  mk_opcode "mtfsf" (m_XFL 63 711 0) m_XFL_MASK ((m_POWER6 .| m_PPCA2) .| m_PPC476) m_PPCVLE;
  mk_opcode "mtfsf" (m_XFL 63 711 0) m_XFL_MASK m_COM ((((m_POWER6 .| m_PPCA2) .| m_PPC476) .| m_PPCEFS) .| m_PPCVLE);
  mk_opcode "mtfsf." (m_XFL 63 711 1) m_XFL_MASK ((m_POWER6 .| m_PPCA2) .| m_PPC476) m_PPCVLE;
  mk_opcode "mtfsf." (m_XFL 63 711 1) m_XFL_MASK m_COM ((((m_POWER6 .| m_PPCA2) .| m_PPC476) .| m_PPCEFS) .| m_PPCVLE);
  mk_opcode "drdpq" (m_XRC 63 770 0) (m_X_MASK .| m_Q_MASK) m_POWER6 m_PPCVLE;
  mk_opcode "drdpq." (m_XRC 63 770 1) (m_X_MASK .| m_Q_MASK) m_POWER6 m_PPCVLE;
  mk_opcode "dcffixq" (m_XRC 63 802 0) (m_X_MASK .| m_Q_MASK) m_POWER6 m_PPCVLE;
  mk_opcode "dcffixq." (m_XRC 63 802 1) (m_X_MASK .| m_Q_MASK) m_POWER6 m_PPCVLE;
  mk_opcode "xsabsqp" (m_XVA 63 804 0) m_XVA_MASK m_PPCVSX3 m_PPCVLE;
  mk_opcode "xsxexpqp" (m_XVA 63 804 2) m_XVA_MASK m_PPCVSX3 m_PPCVLE;
  mk_opcode "xsnabsqp" (m_XVA 63 804 8) m_XVA_MASK m_PPCVSX3 m_PPCVLE;
  mk_opcode "xsnegqp" (m_XVA 63 804 16) m_XVA_MASK m_PPCVSX3 m_PPCVLE;
  mk_opcode "xsxsigqp" (m_XVA 63 804 18) m_XVA_MASK m_PPCVSX3 m_PPCVLE;
  mk_opcode "xssqrtqp" (m_XVARC 63 804 27 0) m_XVA_MASK m_PPCVSX3 m_PPCVLE;
  mk_opcode "xssqrtqpo" (m_XVARC 63 804 27 1) m_XVA_MASK m_PPCVSX3 m_PPCVLE;
  mk_opcode "fctid" (m_XRC 63 814 0) m_XRA_MASK m_PPC64 m_PPCVLE;
  mk_opcode "fctid" (m_XRC 63 814 0) m_XRA_MASK m_PPC476 m_PPCVLE;
  mk_opcode "fctid." (m_XRC 63 814 1) m_XRA_MASK m_PPC64 m_PPCVLE;
  mk_opcode "fctid." (m_XRC 63 814 1) m_XRA_MASK m_PPC476 m_PPCVLE;
  mk_opcode "fctidz" (m_XRC 63 815 0) m_XRA_MASK m_PPC64 m_PPCVLE;
  mk_opcode "fctidz" (m_XRC 63 815 0) m_XRA_MASK m_PPC476 m_PPCVLE;
  mk_opcode "fctidz." (m_XRC 63 815 1) m_XRA_MASK m_PPC64 m_PPCVLE;
  mk_opcode "fctidz." (m_XRC 63 815 1) m_XRA_MASK m_PPC476 m_PPCVLE;
  mk_opcode "denbcdq" (m_XRC 63 834 0) (m_X_MASK .| m_Q_MASK) m_POWER6 m_PPCVLE;
  mk_opcode "denbcdq." (m_XRC 63 834 1) (m_X_MASK .| m_Q_MASK) m_POWER6 m_PPCVLE;
  mk_opcode "xscvqpuwz" (m_XVA 63 836 1) m_XVA_MASK m_PPCVSX3 m_PPCVLE;
  mk_opcode "xscvudqp" (m_XVA 63 836 2) m_XVA_MASK m_PPCVSX3 m_PPCVLE;
  mk_opcode "xscvqpswz" (m_XVA 63 836 9) m_XVA_MASK m_PPCVSX3 m_PPCVLE;
  mk_opcode "xscvsdqp" (m_XVA 63 836 10) m_XVA_MASK m_PPCVSX3 m_PPCVLE;
  mk_opcode "xscvqpudz" (m_XVA 63 836 17) m_XVA_MASK m_PPCVSX3 m_PPCVLE;
  mk_opcode "xscvqpdp" (m_XVARC 63 836 20 0) m_XVA_MASK m_PPCVSX3 m_PPCVLE;
  mk_opcode "xscvqpdpo" (m_XVARC 63 836 20 1) m_XVA_MASK m_PPCVSX3 m_PPCVLE;
  mk_opcode "xscvdpqp" (m_XVA 63 836 22) m_XVA_MASK m_PPCVSX3 m_PPCVLE;
  mk_opcode "xscvqpsdz" (m_XVA 63 836 25) m_XVA_MASK m_PPCVSX3 m_PPCVLE;
  mk_opcode "fmrgow" (m_X 63 838) m_X_MASK m_PPCVSX2 m_PPCVLE;
  mk_opcode "fcfid" (m_XRC 63 846 0) m_XRA_MASK m_PPC64 m_PPCVLE;
  mk_opcode "fcfid" (m_XRC 63 846 0) m_XRA_MASK m_PPC476 m_PPCVLE;
  mk_opcode "fcfid." (m_XRC 63 846 1) m_XRA_MASK m_PPC64 m_PPCVLE;
  mk_opcode "fcfid." (m_XRC 63 846 1) m_XRA_MASK m_PPC476 m_PPCVLE;
  mk_opcode "diexq" (m_XRC 63 866 0) (m_X_MASK .| m_Q_MASK) m_POWER6 m_PPCVLE;
  mk_opcode "diexq." (m_XRC 63 866 1) (m_X_MASK .| m_Q_MASK) m_POWER6 m_PPCVLE].
(* qtlib/ppc-opc.c:7568-7579 *)
Definition opcodes_34 : list opcode := [
  mk_opcode "xsiexpqp" (m_X 63 868) m_X_MASK m_PPCVSX3 m_PPCVLE;
  mk_opcode "fctidu" (m_XRC 63 942 0) m_XRA_MASK (m_POWER7 .| m_PPCA2) m_PPCVLE;
  mk_opcode "fctidu." (m_XRC 63 942 1) m_XRA_MASK (m_POWER7 .| m_PPCA2) m_PPCVLE;
  mk_opcode "fctiduz" (m_XRC 63 943 0) m_XRA_MASK (m_POWER7 .| m_PPCA2) m_PPCVLE;
  mk_opcode "fctiduz." (m_XRC 63 943 1) m_XRA_MASK (m_POWER7 .| m_PPCA2) m_PPCVLE;
  mk_opcode "fmrgew" (m_X 63 966) m_X_MASK m_PPCVSX2 m_PPCVLE;
  mk_opcode "fcfidu" (m_XRC 63 974 0) m_XRA_MASK (m_POWER7 .| m_PPCA2) m_PPCVLE;
  mk_opcode "fcfidu." (m_XRC 63 974 1) m_XRA_MASK (m_POWER7 .| m_PPCA2) m_PPCVLE].

(* qtlib/ppc-opc.c:3532-7580 *)
Definition opcodes : list opcode :=
  List.concat [opcodes_00; opcodes_01; opcodes_02; opcodes_03; opcodes_04; opcodes_05; opcodes_06; opcodes_07;
    opcodes_08; opcodes_09; opcodes_10; opcodes_11; opcodes_12; opcodes_13; opcodes_14; opcodes_15;
    opcodes_16; opcodes_17; opcodes_18; opcodes_19; opcodes_20; opcodes_21; opcodes_22; opcodes_23;
    opcodes_24; opcodes_25; opcodes_26; opcodes_27; opcodes_28; opcodes_29; opcodes_30; opcodes_31;
    opcodes_32; opcodes_33; opcodes_34].
