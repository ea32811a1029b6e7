(** C83: the printed statistics, instruction mix and basic blocks. *)
Require Import NArith ZArith List Bool String Ascii Lia ZifyBool ZifyN ZifyNat.
Require Import Verif.Codec_Types Verif.HtmBits_Spec Verif.Stats_Model Verif.Stats_Spec Verif.Names_Model.
Require Import Verif.Trace_Spec Verif.Trace10_Spec Verif.Tools_Model Verif.Tools_Spec.
Require Import Verif.Table_Model Verif.Table_Spec Verif.Table_Proofs Verif.Table_Proofs2 Verif.Table_Proofs3.
Require Verif.Tlb_Spec Verif.Tlb_Props Verif.Bb_Model Verif.Bb_Spec Verif.Bb_Props Verif.Stats_Props.
Require Verif.Trace8_Props Verif.Trace10_Props Verif.Htm_Props.
Import ListNotations.
Local Open Scope N_scope.
Local Open Scope list_scope.

(** For every log of fewer than 2^31 instructions, every sort and every choice
    of tables: the text has the counts of the log, the shares to the nearest
    hundredth of a percent, and every kind that happened once under its name,
    the most frequent first. *)
Theorem C83_tables : forall nan qs sort (stats imix blk : bool) log bb,
  sorter qs -> Bb_Spec.sorter sort -> Forall wf log -> N.of_nat (List.length log) < 2 ^ 31 ->
  Bb_Model.bb_run (List.map fst log) = Bb_Model.BOk bb ->
  exists t1 t2 t3, print_tables nan qs sort stats imix blk log bb = Some (t1 ++ t2 ++ t3) /\
    (if stats then stats_table dec nan log t1 else t1 = []) /\
    (if imix then mix_table dec nan log t2 else t2 = []) /\
    (if blk then block_table dec dec02 hex16 nan (List.map fst log) t3 else t3 = []).
Proof. exact printed. Qed.
Print Assumptions C83_tables.

(** htmdecoder -s -i -b, for every trace as in C55 and C56 *)
Theorem C83_power8 : forall nan eqs sort (stats imix blk : bool) qs stale junk bad items,
  sorter eqs -> Bb_Spec.sorter sort -> Tlb_Spec.sorter qs -> (forall z, List.length (stale z) = 8%nat) ->
  let ws := flat_map words8 items in
  (Z.of_nat (List.length ws) < 2 ^ 30)%Z -> trace8_ok 0 items ->
  bad = true \/ other (be_val (stale (Z.of_nat (List.length ws)))) ->
  exists t1 t2 t3, htmdecoder_tables nan eqs sort stats imix blk qs stale junk (bytes_of ws) bad = Some (t1 ++ t2 ++ t3) /\
    (if stats then stats_table dec nan (insns8 0 items) t1 else t1 = []) /\
    (if imix then mix_table dec nan (insns8 0 items) t2 else t2 = []) /\
    (if blk then block_table dec dec02 hex16 nan (List.map fst (insns8 0 items)) t3 else t3 = []).
Proof. exact tables8. Qed.
Print Assumptions C83_power8.
Theorem C83_power10 : forall nan eqs sort (stats imix blk : bool) qs stale junk bad items,
  sorter eqs -> Bb_Spec.sorter sort -> (forall z, List.length (stale z) = 8%nat) ->
  let ws := file10 false start10 items in
  (Z.of_nat (List.length ws) < 2 ^ 30)%Z -> trace10_ok false start10 items ->
  bad = true \/ other (be_val (stale (Z.of_nat (List.length ws)))) ->
  exists t1 t2 t3, htmdecoder_tables nan eqs sort stats imix blk qs stale junk (bytes_of ws) bad = Some (t1 ++ t2 ++ t3) /\
    (if stats then stats_table dec nan (insns10 false start10 items) t1 else t1 = []) /\
    (if imix then mix_table dec nan (insns10 false start10 items) t2 else t2 = []) /\
    (if blk then block_table dec dec02 hex16 nan (List.map fst (insns10 false start10 items)) t3 else t3 = []).
Proof. exact tables10. Qed.
Print Assumptions C83_power10.

(** The log of C32. *)
Fixpoint str (l : list N) : string :=
  match l with [] => EmptyString | c :: l' => String (ascii_of_N c) (str l') end.
Definition shown (stats imix blk : bool) (l : list (N * N)) : option string :=
  match Bb_Model.bb_run (List.map fst l) with
  | Bb_Model.BOk b =>
      option_map str (print_tables (chars "nan") Stats_Props.isort Bb_Props.isort stats imix blk l b)
  | _ => None
  end.
Example C83_ex_stats : shown true false false Stats_Props.ex = Some "
Instructions:
  Total           10
    System               5	 50.00% of Total
      Idle               0	  0.00% of System
    OPAL                 2	 20.00% of Total
    User                 3	 30.00% of Total
      Bin                2	 66.67% of User
      Lib                1	 33.33% of User

Context Switches:        2
WARNING: Context Switches fuzzy by 50.00%)

Exceptions:              1
	System Call/HCALL	1

Syscalls:                1
	           write	1

OPAL Calls:              1
	   CONSOLE_WRITE	1

HCALLS Calls:            1
	         H_ENTER	1
"%string.
Proof. vm_compute. reflexivity. Qed.
Example C83_ex_mix : shown false true true Stats_Props.ex = Some "
Instruction mix:
	              li	        3  30.00%
	             nop	        3  30.00%
	              sc	        2  20.00%
	        mfvrsave	        2  20.00%

UNKNOWN instruction:                  0
BBDUMP 00: ea:0000000010000000 size:   2 hit:         1 20.00% 
BBDUMP 01: ea:0000000030000100 size:   2 hit:         1 20.00% 
BBDUMP 02: ea:c000000000010000 size:   2 hit:         1 20.00% 
BBDUMP 03: ea:00007fff00000000 size:   1 hit:         1 10.00% 
BBDUMP 04: ea:c000000000004c00 size:   1 hit:         1 10.00% 
BBDUMP 05: ea:c000000000020000 size:   1 hit:         1 10.00% 
BBDUMP 06: ea:c000000000030000 size:   1 hit:         1 10.00% 
"%string.
Proof. vm_compute. reflexivity. Qed.
Example C83_ex_ok : sorter Stats_Props.isort /\ Bb_Spec.sorter Bb_Props.isort /\ Forall wf Stats_Props.ex.
Proof. split; [exact Stats_Props.C52_sorter|]. split; [exact Bb_Props.C21_sorter|exact Stats_Props.C32_ex_wf]. Qed.
Example C83_ex8 : option_map str (htmdecoder_tables [] Stats_Props.isort Bb_Props.isort false true false Tlb_Props.isort
    Htm_Props.quiet Htm_Props.no_junk (bytes_of (flat_map words8 Trace8_Props.ex8)) true) = Some "
Instruction mix:
	               b	        1  25.00%
	             nop	        1  25.00%
	             add	        1  25.00%
	              ld	        1  25.00%

UNKNOWN instruction:                  0
"%string.
Proof. vm_compute. reflexivity. Qed.

(** ** Shares
    A share that is a whole number of hundredths of a percent is exact, and
    any other off by no more than half a hundredth and a thousandth of one. *)
Theorem C83_share : forall n d h, 0 < d -> n <= d -> close n d h ->
  (forall k, 10000 * n = k * d -> h = k) /\
  1000 * (h * d) <= 1000 * (10000 * n) + 501 * d /\ 1000 * (10000 * n) <= 1000 * (h * d) + 501 * d /\ h <= 10000.
Proof.
  intros n d h D L [A B]. split; [|split; [lia|split; [lia|]]].
  - intros k E. assert (X : 2000 * (h * d) <= 2000 * (k * d) + 1002 * d) by lia.
    assert (Y : 2000 * (k * d) <= 2000 * (h * d) + 1002 * d) by lia. clear - D X Y.
    assert (2000 * h <= 2000 * k + 1002) by nia. assert (2000 * k <= 2000 * h + 1002) by nia. lia.
  - assert (X : 2000 * (h * d) <= 20001002 * d) by lia. assert (2000 * h <= 20001002) by nia. lia.
Qed.
Print Assumptions C83_share.
(** A third, two thirds, and all; a share that is nearly a tie. *)
Example C83_share_ex : List.map (fun p => str (share [] (fst p) (snd p))) [(1, 3); (2, 3); (7, 7); (1, 800); (1, 20000)]
  = ["33.33"; "66.67"; "100.00"; "0.12"; "0.01"]%string.
Proof. vm_compute. reflexivity. Qed.
(** Shares of idle time can be above 100 percent (C33). *)
Theorem C83_idle_refuted : ~ forall xs, Forall wf xs -> idle (rev xs) <= N.of_nat (List.length (filter kernel xs)).
Proof.
  intros H. set (k := 0xc000000000020000).
  specialize (H [(k, 0x7c6c42a6); (k + 4, 0x7ffffb78); (k, 0x7c6c42a6); (k + 4, 0x7ffffb78)] ltac:(repeat constructor)).
  vm_compute in H. exact (H eq_refl).
Qed.
Print Assumptions C83_idle_refuted.
Example C83_idle_ex : str (share0 [] 7 4) = "175.00"%string.
Proof. vm_compute. reflexivity. Qed.
(** Without instructions the shares of the total are 0.0/0.0, and what that
    prints is up to the library. *)
Theorem C83_empty_refuted : ~ forall nan nan' qs sort xs bb, sorter qs -> Bb_Spec.sorter sort -> Forall wf xs ->
  Bb_Model.bb_run (List.map fst xs) = Bb_Model.BOk bb ->
  print_tables nan qs sort true false false xs bb = print_tables nan' qs sort true false false xs bb.
Proof.
  intros H.
  assert (W : exists bb, Bb_Model.bb_run [] = Bb_Model.BOk bb) by (vm_compute; eexists; reflexivity).
  destruct W as (bb & W).
  specialize (H (chars "nan") (chars "-nan") Stats_Props.isort Bb_Props.isort [] bb
    Stats_Props.C52_sorter Bb_Props.C21_sorter ltac:(constructor) W).
  revert H. vm_compute in W. injection W as <-. vm_compute. intros H. discriminate H.
Qed.
Print Assumptions C83_empty_refuted.

(** ** Names
    Every entry has one, and no two entries of a table have the same. *)
Theorem C83_names :
  List.length exception_names = List.length exceptions /\ List.length syscall_names = N.to_nat NR_SYSCALLS /\
  List.length opal_names = N.to_nat NR_OPALCALLS /\ List.length hcall_names = List.length hcalls /\
  NoDup exception_names /\ NoDup syscall_names /\ NoDup opal_names /\ NoDup hcall_names.
Proof.
  assert (U : forall l, nodup string_dec l = l -> NoDup l) by (intros l <-; apply NoDup_nodup).
  repeat match goal with |- _ /\ _ => split end; try (vm_compute; reflexivity); apply U; vm_compute; reflexivity.
Qed.
Print Assumptions C83_names.
(** read, write, mmap; OPAL_CONSOLE_WRITE; H_ENTER has token 8; 0x900 *)
Example C83_names_ex :
  List.map (fun k => nth k syscall_names ""%string) [3; 4; 90]%nat = ["read"; "write"; "mmap"]%string /\
  nth 1 opal_names ""%string = "CONSOLE_WRITE"%string /\
  (nth 2 hcalls 0, nth 2 hcall_names ""%string) = (8, "H_ENTER"%string) /\
  (nth 2 exceptions 0, nth 2 exception_names ""%string) = (0x900, "Decrementer"%string).
Proof. vm_compute. repeat split; reflexivity. Qed.
(** The names are those of the architecture: all exceptions with their vectors;
    of the calls some, by their numbers in Linux, skiboot and the PAPR. *)
Fixpoint named_as (numbers : list N) (names : list string) (n : N) : option string :=
  match numbers, names with
  | k :: ks, s :: ss => if k =? n then Some s else named_as ks ss n
  | _, _ => None
  end.
Definition vectors : list (N * string) :=
  [(0x100, "System Reset"); (0x200, "Machine Check"); (0x300, "Data Storage"); (0x380, "Data Segment");
   (0x400, "Instruction Storage"); (0x480, "Instruction Segment"); (0x500, "External"); (0x600, "Alignment");
   (0x700, "Program"); (0x800, "FP Unavail"); (0x900, "Decrementer"); (0x980, "HV Decrementer");
   (0xa00, "Directed Privil Doorbell"); (0xb00, "0xB00 Reserved"); (0xc00, "System Call/HCALL"); (0xd00, "Trace");
   (0xe00, "HV Data Storage"); (0xe20, "HV Instruction Storage"); (0xe40, "HV Emulation Assistance");
   (0xe60, "Hypervisor Maintenance"); (0xe80, "Directed HV Doorbell"); (0xea0, "HV Virtualization");
   (0xf00, "Performance Monitor"); (0xf20, "Vector Unavail"); (0xf40, "VSX Unavail"); (0xf60, "Facility Unavail");
   (0xf80, "HV Facility Unavail")]%string.
Definition linux_calls : list (nat * string) :=
  [(1, "exit"); (2, "fork"); (3, "read"); (4, "write"); (5, "open"); (6, "close"); (11, "execve"); (20, "getpid");
   (37, "kill"); (45, "brk"); (54, "ioctl"); (90, "mmap"); (91, "munmap"); (120, "clone"); (125, "mprotect");
   (167, "poll"); (207, "gettid"); (221, "futex"); (234, "exit_group"); (286, "openat"); (359, "getrandom")]%nat%string.
Definition opal_calls : list (nat * string) :=
  [(1, "CONSOLE_WRITE"); (2, "CONSOLE_READ"); (3, "RTC_READ"); (5, "CEC_POWER_DOWN"); (6, "CEC_REBOOT");
   (10, "POLL_EVENTS"); (98, "HANDLE_HMI"); (107, "IPMI_SEND"); (109, "I2C_REQUEST"); (128, "XIVE_RESET")]%nat%string.
Definition papr_calls : list (N * string) :=
  [(0x4, "H_REMOVE"); (0x8, "H_ENTER"); (0xc, "H_READ"); (0x18, "H_PROTECT"); (0x20, "H_PUT_TCE"); (0x64, "H_EOI");
   (0x68, "H_CPPR"); (0x6c, "H_IPI"); (0x74, "H_XIRR"); (0x78, "H_MIGRATE_DMA"); (0x7c, "H_PERFMON");
   (0xdc, "H_REGISTER_VPA"); (0xe0, "H_CEDE"); (0xe4, "H_CONFER"); (0xe8, "H_PROD"); (0x124, "H_BULK_REMOVE");
   (0x298, "H_JOIN"); (0x300, "H_RANDOM"); (0x31c, "H_SET_MODE"); (0x36c, "H_RESIZE_HPT_PREPARE"); (0x3d0, "H_INT_RESET")]%string.
Theorem C83_numbers :
  (forall n s, named_as exceptions exception_names n = Some s <-> In (n, s) vectors) /\
  (forall n s, In (n, s) linux_calls -> nth_error syscall_names n = Some s) /\
  (forall n s, In (n, s) opal_calls -> nth_error opal_names n = Some s) /\
  (forall n s, In (n, s) papr_calls -> named_as hcalls hcall_names n = Some s).
Proof.
  assert (I : forall A (f : A -> option string) l, forallb (fun p => match f (fst p) with Some s => String.eqb s (snd p) | None => false end) l = true ->
    forall n s, In (n, s) l -> f n = Some s).
  { intros A f l H n s J. rewrite forallb_forall in H. specialize (H _ J). cbn [fst snd] in H. destruct (f n) as [u|]; [|discriminate H].
    apply String.eqb_eq in H. now rewrite H. }
  split; [|split; [|split]]; try (apply I; vm_compute; reflexivity).
  intros n s. split; [|apply I; vm_compute; reflexivity].
  intros H. assert (J : In n exceptions).
  { clear - H. revert H. generalize exception_names. induction exceptions as [|k ks IH]; intros names H; [discriminate H|].
    destruct names as [|s' names]; [discriminate H|]. cbn [named_as] in H. destruct (N.eqb_spec k n) as [E|E]; [now left|]. right. exact (IH _ H). }
  revert H. cbv [exceptions In] in J.
  repeat (destruct J as [<-|J]; [vm_compute; intros H; injection H as <-; tauto|]). destruct J.
Qed.
Print Assumptions C83_numbers.
