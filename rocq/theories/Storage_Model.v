(** Model of ptracer/ppc_storage.c. *)
Require Import NArith List Bool.
Require Import Verif.Word.
Local Open Scope N_scope.

(** The result of is_storage_insn: false, true with address and size, or a
    failed assertion.  A false result leaves address and size zero. *)
Inductive sres := SNo | SYes (addr size : N) | SAbort.

Section INSN.
  Variable insn : N.
  (** The register file; with a null pointer an uninitialised local array is
      used instead: arbitrary values. *)
  Variable gprs : N -> N.

  (* ppc_storage.c:15-20 *)
  Definition PPC_FIELD (from len : N) : N :=
    N.land (N.shiftr insn (32 - from - len)) (N.shiftl 1 len - 1).
  Definition PPC_SEXT (v bs : N) : N :=
    sub64 (N.lxor (N.land v (N.shiftl 1 bs - 1)) (N.shiftl 1 (bs - 1))) (N.shiftl 1 (bs - 1)).
  (* ppc_storage.c:22-29 *)
  Definition PPC_OPC := PPC_FIELD 0 6.
  Definition PPC_RT := PPC_FIELD 6 5.
  Definition PPC_RA := PPC_FIELD 11 5.
  Definition PPC_RB := PPC_FIELD 16 5.
  Definition PPC_D := PPC_SEXT (PPC_FIELD 16 16) 16.
  Definition PPC_DS := PPC_SEXT (PPC_FIELD 16 14) 14.
  Definition PPC_DQ := PPC_SEXT (PPC_FIELD 16 12) 12.
  Definition CACHELINE_SIZE : N := 128.

  (** *addr is 0 on entry. *)
  Definition base : N := if negb (PPC_RA =? 0) then gprs PPC_RA else 0.
  (* ppc_storage.c:31-42; masks are negative ints converted to unsigned long *)
  Definition handle_xform_masked (size mask : N) : sres :=
    SYes (N.land (add64 base (gprs PPC_RB)) mask) size.
  (* ppc_storage.c:44-48 *)
  Definition handle_xform (size : N) : sres := handle_xform_masked size 18446744073709551615.
  (* ppc_storage.c:50-59 *)
  Definition handle_dform (size : N) : sres := SYes (add64 base PPC_D) size.
  (* ppc_storage.c:61-70 *)
  Definition handle_dqform (size : N) : sres := SYes (add64 base (u64 (N.shiftl PPC_DQ 4))) size.
  (* ppc_storage.c:72-81 *)
  Definition handle_dsform (size : N) : sres := SYes (add64 base (u64 (N.shiftl PPC_DS 2))) size.

  (* ppc_storage.c:83-279 *)
  Definition extended_31 : sres :=
    match PPC_FIELD 21 10 with
    | 7 | 135 => handle_xform 1                                            (* lvebx stvebx *)
    | 39 | 167 => handle_xform_masked 2 18446744073709551614               (* lvehx stvehx *)
    | 71 | 199 => handle_xform_masked 4 18446744073709551612               (* lvewx stvewx *)
    | 103 | 231 | 359 | 487 => handle_xform_masked 16 18446744073709551600 (* lvx stvx lvxl stvxl *)
    | 269 | 301 | 397 | 429 =>                                             (* lxvl lxvll stxvl stxvll *)
        let size := N.shiftr (gprs PPC_RB) 56 in
        SYes base (if 16 <? size then 16 else size)
    | 781 | 909 => handle_xform 1                                          (* lxsibzx stxsibx *)
    | 813 | 941 => handle_xform 2                                          (* lxsihzx stxsihx *)
    | 12 | 76 | 140 | 364 | 524 | 652 => handle_xform 4   (* lxsiwzx lxsiwax stxsiwx lxvwsx lxsspx stxsspx *)
    | 332 | 588 | 716 => handle_xform 8                                    (* lxvdsx lxsdx stxsdx *)
    | 268 | 396 | 780 | 908 | 812 | 940 | 844 | 972 | 876 | 1004 => handle_xform 16
        (* lxvx stxvx lxvw4x stxvw4x lxvh8x stxvh8x lxvd2x stxvd2x lxvb16x stxvb16x *)
    | 52 | 694 | 87 | 119 | 215 | 247 | 853 | 981 => handle_xform 1
        (* lbarx stbcx. lbzx lbzux stbx stbux lbzcix stbcix *)
    | 116 | 726 | 279 | 311 | 343 | 375 | 407 | 439 | 790 | 918 | 821 | 949 => handle_xform 2
        (* lharx sthcx. lhzx lhzux lhax lhaux sthx sthux lhbrx sthbrx lhzcix sthcix *)
    | 20 | 150 | 23 | 151 | 55 | 341 | 373 | 183 | 534 | 662 | 789 | 917 => handle_xform 4
        (* lwarx stwcx. lwzx stwx lwzux lwax lwaux stwux lwbrx stwbrx lwzcix stwcix *)
    | 84 | 214 | 21 | 149 | 53 | 181 | 532 | 660 | 885 | 1013 | 309 => handle_xform 8
        (* ldarx stdcx. ldx stdx ldux stdux ldbrx stdbrx ldcix stdcix ldmx *)
    | 276 | 182 => handle_xform 16                                         (* lqarx stqcx. *)
    | 535 | 567 | 663 | 695 | 855 | 887 | 983 => handle_xform 4
        (* lfsx lfsux stfsx stfsux lfiwax lfiwzx stfiwx *)
    | 599 | 631 | 727 | 759 => handle_xform 8                              (* lfdx lfdux stfdx stfdux *)
    | 791 | 919 => handle_xform 16                                         (* lfdpx stfdpx *)
    | 22 | 54 | 86 | 246 | 278 | 982 | 1014 =>      (* icbt dcbst dcbf dcbtst dcbt icbi dcbz *)
        handle_xform_masked CACHELINE_SIZE 18446744073709551488
    | 533 | 661 | 597 | 725 => SAbort                                      (* lswx stswx lswi stswi *)
    | 582 | 710 => SAbort                                                  (* lwat stwat *)
    | 614 | 742 => SAbort                                                  (* ldat stdat *)
    | 774 | 902 => handle_xform CACHELINE_SIZE                             (* copy paste *)
    | _ => SNo
    end.
  (* ppc_storage.c:281-302 *)
  Definition extended_57 : sres :=
    match PPC_FIELD 30 2 with
    | 0 => handle_dsform 16
    | 2 => handle_dsform 8
    | 3 => handle_dsform 4
    | _ => SNo
    end.
  (* ppc_storage.c:304-321 *)
  Definition extended_58 : sres :=
    match PPC_FIELD 30 2 with
    | 0 | 1 => handle_dsform 8
    | 2 => handle_dsform 4
    | _ => SNo
    end.
  (* ppc_storage.c:323-355 *)
  Definition extended_61 : sres :=
    match PPC_FIELD 29 3 with
    | 0 | 4 => handle_dsform 16
    | 1 | 5 => handle_dqform 16
    | 2 | 6 => handle_dsform 8
    | 3 | 7 => handle_dsform 4
    | _ => SNo
    end.
  (* ppc_storage.c:357-374 *)
  Definition extended_62 : sres :=
    match PPC_FIELD 30 2 with
    | 0 | 1 => handle_dsform 8
    | 2 => handle_dsform 16
    | _ => SNo
    end.
  (* ppc_storage.c:376-459 *)
  Definition is_storage_insn : sres :=
    match PPC_OPC with
    | 31 => extended_31
    | 57 => extended_57
    | 58 => extended_58
    | 61 => extended_61
    | 62 => extended_62
    | 32 | 33 | 36 | 37 => handle_dform 4                (* lwz lwzu stw stwu *)
    | 34 | 35 | 38 | 39 => handle_dform 1                (* lbz lbzu stb stbu *)
    | 40 | 41 | 42 | 43 | 44 | 45 => handle_dform 2      (* lhz lhzu lha lhau sth sthu *)
    | 48 | 49 | 52 | 53 => handle_dform 4                (* lfs lfsu stfs stfsu *)
    | 50 | 51 | 54 | 55 => handle_dform 8                (* lfd lfdu stfd stfdu *)
    | 56 => handle_dqform 16                             (* lq *)
    | 46 | 47 => handle_dform (4 * (32 - PPC_RT))        (* lmw stmw *)
    | _ => SNo
    end.
End INSN.
