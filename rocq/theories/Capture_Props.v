(** C65: taking hold of a process, starting a program, and its instructions. *)
Require Import NArith List Bool Lia.
From Verif Require Import Capture_Model Capture_Spec Capture_Proofs Capture_Proofs2 Capture_Proofs3.
Import ListNotations.
Local Open Scope N_scope.

(** The process is taken hold of exactly by the calls of [captured]. *)
Theorem C65_capture : forall max before pid answers l after rest,
  capture_all_threads max before pid answers = (l, Ret after rest)
  <-> answers = List.map snd l ++ rest /\ captured max before pid after l.
Proof. exact capture_ok. Qed.
Print Assumptions C65_capture.

(** Whatever happens, nothing is written outside the table and only the process and
    the threads listed in its directory are touched. *)
Theorem C65_only_listed : forall max before pid answers, (length before < max)%nat ->
  snd (capture_all_threads max before pid answers) <> Oob
  /\ forall c r, In (c, r) (fst (capture_all_threads max before pid answers)) ->
       exists p, target c = Some p
         /\ (p = pid \/ In p before
             \/ exists names s, In (Names names) answers /\ In s names /\ Forall digit s /\ p = decimal s).
Proof. exact capture_within. Qed.
Print Assumptions C65_only_listed.

(** The tracer exits only when something was refused, or the names are no list of
    threads that fits. *)
Theorem C65_exits : forall max before pid answers l,
  capture_all_threads max before pid answers = (l, Exit) -> Forall proper l ->
  refused l
  \/ exists l0 names, l = l0 ++ [(OpenTasks pid, Names names)]
       /\ ~ exists ids, listed names ids /\ (ids = [] \/ (length (before ++ ids) < max)%nat).
Proof. exact capture_exits. Qed.
Print Assumptions C65_exits.

(** Answers are taken in order, and it waits only when there is none left. *)
Theorem C65_orderly : forall max before pid answers,
  (forall l x, capture_all_threads max before pid answers = (l, x) ->
     exists rest, answers = List.map snd l ++ rest /\ (x = Waiting -> rest = []))
  /\ (forall l x, do_exec max before answers = (l, x) ->
     exists rest, answers = List.map snd l ++ rest /\ (x = Waiting -> rest = [])).
Proof. exact orderly_both. Qed.
Print Assumptions C65_orderly.

(** A program is started exactly by the calls of [started]. *)
Theorem C65_exec : forall max before, (length before < max)%nat -> forall answers l after child rest,
  do_exec max before answers = (l, Ret (after, child) rest)
  <-> answers = List.map snd l ++ rest /\ after = before ++ [child] /\ started child l.
Proof. exact exec_ok. Qed.
Print Assumptions C65_exec.

(** A child that was not started is killed. *)
Theorem C65_no_child_left : forall max before answers l,
  do_exec max before answers = (l, Exit) -> Forall proper l ->
  l = [(Fork, Fail)] \/ exists c l0, l = (Fork, Child c) :: l0 /\ killed c l0.
Proof. exact exec_exits. Qed.
Print Assumptions C65_no_child_left.

(** The threads that are not traced are continued, once each. *)
Theorem C65_release : forall pids p answers l rest,
  release_all_non_tracing_threads pids p answers = (l, Ret tt rest)
  <-> answers = List.map snd l ++ rest /\ List.map fst l = List.map (fun q => Cont q 0) (others p pids).
Proof. exact release_ok. Qed.
Print Assumptions C65_release.

(** The instruction that memory holds is read, in both byte orders, if the eight
    bytes there can be read and are not all ones. *)
Theorem C65_read : forall m, is_bytes m -> forall big pc i,
  read_insn big m pc = Some i
  <-> mapped m pc 8 /\ ~ all_ones m pc /\ i < 2 ^ 32 /\ holds m pc (insn_bytes big i).
Proof. exact read_ok. Qed.
Print Assumptions C65_read.

(** Writing changes the four bytes of the instruction and no other. *)
Theorem C65_write : forall m, is_bytes m -> forall big pc i, i < 2 ^ 32 ->
  match write_insn big m pc i with
  | Some m' => mapped m pc 8 /\ ~ all_ones m pc /\ is_bytes m' /\ holds m' pc (insn_bytes big i)
               /\ forall q, (q < pc \/ pc + 4 <= q) -> m' q = m q
  | None => ~ mapped m pc 8 \/ all_ones m pc
  end.
Proof. exact write_ok. Qed.
Print Assumptions C65_write.

(** Taking a breakpoint out again restores the program. *)
Theorem C65_restore : forall m big pc old new m1, is_bytes m -> new < 2 ^ 32 ->
  read_insn big m pc = Some old -> write_insn big m pc new = Some m1 -> ~ all_ones m1 pc ->
  exists m2, write_insn big m1 pc old = Some m2 /\ forall q, m2 q = m q.
Proof. exact restore_ok. Qed.
Print Assumptions C65_restore.

(** ** What does not hold *)
Definition num (s : list N) : list N := List.map (fun d => 48 + d) s.
(** A process with as many threads as the table has entries is refused. *)
Theorem C65_full_table_refuted :
  exists max pid names ids l, listed names ids /\ length ids = max
    /\ capture_all_threads max [] pid [Ok; Ok; Status 0x80137f; Names names; Ok; Status 0x80137f; Ok; Ok; Ok] = (l, Exit)
    /\ ~ refused l.
Proof.
  exists 2%nat, 7, [num [7]; num [8]], [7; 8],
    [(Seize 7, Ok); (Kill 7 19, Ok); (Wait 7, Status 0x80137f); (OpenTasks 7, Names [num [7]; num [8]])]. split; [| split; [reflexivity | split; [reflexivity |]]].
  - apply (li_tid (num [7])); [discriminate | repeat constructor; discriminate | reflexivity |].
    apply (li_tid (num [8])); [discriminate | repeat constructor; discriminate | reflexivity |]. constructor.
  - intros (l0 & c & H). apply (f_equal (@rev event)) in H. rewrite rev_app_distr in H. discriminate H.
Qed.
Print Assumptions C65_full_table_refuted.
(** An instruction in the last word that is mapped cannot be read, nor one whose
    eight bytes are ones. *)
Theorem C65_every_insn_refuted :
  (exists m pc i, is_bytes m /\ holds m pc (insn_bytes false i) /\ i < 2 ^ 32 /\ read_insn false m pc = None
     /\ mapped m (pc - 4) 8)
  /\ exists m pc i, is_bytes m /\ holds m pc (insn_bytes false i) /\ i < 2 ^ 32 /\ read_insn false m pc = None
     /\ mapped m pc 8.
Proof.
  split.
  - exists (fun a => if a <? 65536 then Some 0 else None), 65532, 0. split; [| split; [| split; [reflexivity | split; [vm_compute; reflexivity |]]]].
    + intros a b. destruct (a <? 65536); intros H; inversion H. reflexivity.
    + intros k Hk. destruct k as [| [| [| [| k]]]]; [reflexivity .. | cbn in Hk; lia].
    + intros k Hk. destruct (N.ltb_spec (65532 - 4 + k) 65536); [discriminate | lia].
  - exists (fun _ => Some 255), 0, 0xffffffff. split; [| split; [| split; [reflexivity | split; [vm_compute; reflexivity |]]]].
    + intros a b H; inversion H. reflexivity.
    + intros k Hk. destruct k as [| [| [| [| k]]]]; [reflexivity .. | cbn in Hk; lia].
    + intros k Hk. discriminate.
Qed.
Print Assumptions C65_every_insn_refuted.

(** ** Examples *)
(** A process 100 with threads 100, 101 and 102: an interrupted wait, a SIGUSR1 that
    is passed on to 100, and a SIGCHLD that is passed on to 101. *)
Definition three : list resp :=
  [Ok; Ok; Intr; Status 0x0a7f; Ok; Status 0x80137f;
   Names [[46]; [46; 46]; num [1; 0; 0]; num [1; 0; 1]; num [1; 0; 2]];
   Ok; Ok; Status 0x117f; Ok; Status 0x80137f; Status 0x80137f; Ok; Ok; Ok; Ok].
Example ex_three : capture_all_threads 30 [] 100 three =
  ([(Seize 100, Ok); (Kill 100 19, Ok); (Wait 100, Intr); (Wait 100, Status 0x0a7f); (Cont 100 10, Ok); (Wait 100, Status 0x80137f);
    (OpenTasks 100, Names [[46]; [46; 46]; num [1; 0; 0]; num [1; 0; 1]; num [1; 0; 2]]);
    (Seize 101, Ok); (Seize 102, Ok); (Wait 101, Status 0x117f); (Cont 101 17, Ok); (Wait 101, Status 0x80137f);
    (Wait 102, Status 0x80137f); (Interrupt 100, Ok); (Interrupt 101, Ok); (Interrupt 102, Ok); (Kill 100 18, Ok)],
   Ret [100; 101; 102] []).
Proof. vm_compute. reflexivity. Qed.
Example ex_three_spec : exists l, captured 30 [] 100 [100; 101; 102] l /\ List.map snd l = three.
Proof.
  eexists. pose proof (proj1 (C65_capture _ _ _ _ _ _ _) ex_three) as [H1 H2]. split; [exact H2 |].
  rewrite app_nil_r in H1. symmetry. exact H1.
Qed.
(** A process that is gone *)
Example ex_gone : capture_all_threads 30 [] 100 [Ok; Ok; Status 0x9; Fail] =
  ([(Seize 100, Ok); (Kill 100 19, Ok); (Wait 100, Status 9); (Wait 100, Fail)], Exit).
Proof. vm_compute. reflexivity. Qed.
(** A program is started; one that does not exist is not. *)
Example ex_start : do_exec 30 [] [Child 7; Status 0x137f; Ok; Intr; Status 0x80137f; Ok; Status 0x4057f] =
  ([(Fork, Child 7); (Wait 7, Status 0x137f); (Seize 7, Ok); (Wait 7, Intr); (Wait 7, Status 0x80137f); (Cont 7 0, Ok);
    (Wait 7, Status 0x4057f)], Ret ([7], 7) []).
Proof. vm_compute. reflexivity. Qed.
Example ex_no_program : do_exec 30 [] [Child 7; Status 0x137f; Ok; Status 0x80137f; Ok; Status 0x100; Ok] =
  ([(Fork, Child 7); (Wait 7, Status 0x137f); (Seize 7, Ok); (Wait 7, Status 0x80137f); (Cont 7 0, Ok);
    (Wait 7, Status 0x100); (Kill 7 9, Ok)], Exit).
Proof. vm_compute. reflexivity. Qed.
(** A trap put into nop; blr, and taken out, on both kinds of machine *)
Definition le_code : memory := fun a => nth_error [0; 0; 0; 0x60; 0x20; 0; 0x80; 0x4e] (N.to_nat a).
Definition be_code : memory := fun a => nth_error [0x60; 0; 0; 0; 0x4e; 0x80; 0; 0x20] (N.to_nat a).
Definition dump (m : memory) : list (option N) := List.map m [0; 1; 2; 3; 4; 5; 6; 7].
Example ex_le : read_insn false le_code 0 = Some 0x60000000
  /\ option_map dump (write_insn false le_code 0 0x7fe00008)
     = Some (List.map Some [8; 0; 0xe0; 0x7f; 0x20; 0; 0x80; 0x4e]).
Proof. vm_compute. split; reflexivity. Qed.
Example ex_be : read_insn true be_code 0 = Some 0x60000000
  /\ option_map dump (write_insn true be_code 0 0x7fe00008)
     = Some (List.map Some [0x7f; 0xe0; 0; 8; 0x4e; 0x80; 0; 0x20]).
Proof. vm_compute. split; reflexivity. Qed.
