Require Import NArith ZArith List Lia Bool.
Require Import Verif.Word Verif.Storage_Spec Verif.Step_Model Verif.Step_Spec Verif.Step_Proofs3.
Import ListNotations.
Local Open Scope N_scope.

(** C43: whatever the program does while it runs, and however the call ends,
    the program is left as [left_with] says: untouched before breakpoints are
    placed, and with every breakpoint replaced by what it stood for at the
    end.  Both endiannesses. *)
Theorem C43_left : forall be poke_ok run,
  (forall m1, words m1 -> words (fst (run m1))) ->
  forall fn m p, words m -> p mod 4 = 0 -> p < MAXP ->
  left_with run m p (step_over_atomic be poke_ok run fn m p).
Proof. exact step_left. Qed.
Print Assumptions C43_left.

(** If the program itself writes nothing, nothing has changed. *)
Theorem C43_unchanged : forall be poke_ok run fn m p,
  words m -> p mod 4 = 0 -> p < MAXP ->
  (forall m1 a, fst (run m1) a = m1 a) ->
  match step_over_atomic be poke_ok run fn m p with
  | NotLarx m' | ExitEarly m' | ExitAfter m' | Stepped m' _ _ _ => forall a, m' a = m a
  | ExitInserting _ | ExitRemoving _ => True
  end.
Proof. exact step_unchanged. Qed.
Print Assumptions C43_unchanged.

(** When the sequence is stepped over *)
Theorem C43_succeeds : forall be poke_ok run,
  (forall m1, words m1 -> words (fst (run m1))) ->
  forall fn m p n pc, words m -> p mod 4 = 0 -> p < MAXP ->
  sequence m p n -> (n < 32)%nat -> (count_bform m p n <= 7)%nat ->
  (forall k, (k <= n)%nat -> fetchable m (p + 4 * N.of_nat k)) ->
  (forall x, exit_point m p n x -> fetchable m x /\ poke_ok x = true) ->
  (forall m1, with_breakpoints m (exit_point m p n) m1 ->
     snd (run m1) = Illegal pc /\
     forall x, exit_point m p n x ->
       fst (run m1) x = Some BREAKPOINT_INSN /\ fst (run m1) (x + 4) <> None) ->
  pc <> MINUS1 ->
  exists m', step_over_atomic be poke_ok run fn m p
    = if fn then Stepped m' pc (calls p pc) (pdiff (p + 4 * N.of_nat (length (calls p pc))) pc)
      else Stepped m' pc [] (pdiff p pc).
Proof. exact step_succeeds. Qed.
Print Assumptions C43_succeeds.

(* lwarx r9,0,r3; bne .+16; bnea 0; stwcx. r10,0,r3; nop; nop; nop *)
Definition two_exits : list N :=
  [0x7d201828; 0x40820010; 0x40820002; 0x7d40192d; 0x60000000; 0x60000000; 0x60000000].
Definition any (a : N) : bool := true.
(** With a branch to a place that cannot be read the tracer exits and leaves
    the breakpoints it has already placed in the program. *)
Theorem C43_left_behind_refuted : exists m', exists a,
  step_over_atomic false any (fun m1 => (m1, Other)) true (mem_of 4096 two_exits) 4096
    = ExitInserting m' /\
  mem_of 4096 two_exits a = Some 0x60000000 /\ m' a = Some BREAKPOINT_INSN.
Proof.
  eexists. exists 4116. split; [vm_compute; reflexivity|]. split; vm_compute; reflexivity.
Qed.
Print Assumptions C43_left_behind_refuted.

(** A sequence in the last two words of a mapping cannot be stepped over,
    and neither can one before two words of ones. *)
Theorem C43_fetch_refuted :
  let m := mem_of 4096 [0x7d201828; 0x7d40192d] in
  let o := mem_of 4096 [0x7d201828; 0xffffffff; 0xffffffff; 0x7d40192d; 0x60000000] in
  sequence m 4096 1 /\ sequence o 4096 3 /\
  (forall run fn, step_over_atomic false any run fn m 4096 = ExitEarly m) /\
  (forall run fn, step_over_atomic false any run fn o 4096 = ExitEarly o).
Proof.
  cbv zeta. split; [|split; [|split]].
  - split; [|split; [|split]].
    + intros k Hk. destruct k as [|[|k]]; [discriminate..|lia].
    + intros w E. vm_compute in E. injection E as <-. vm_compute. auto.
    + intros k w Hk E. destruct k; [|lia]. vm_compute in E. injection E as <-.
      intros (_ & H & _). vm_compute in H. intuition discriminate.
    + intros w E. vm_compute in E. injection E as <-. vm_compute. intuition.
  - split; [|split; [|split]].
    + intros k Hk. destruct k as [|[|[|[|k]]]]; [discriminate..|lia].
    + intros w E. vm_compute in E. injection E as <-. vm_compute. auto.
    + intros k w Hk E. destruct k as [|[|[|k]]]; [| | |lia]; vm_compute in E; injection E as <-;
        intros (H0 & H & _); vm_compute in H0, H; intuition discriminate.
    + intros w E. vm_compute in E. injection E as <-. vm_compute. intuition.
  - intros. reflexivity.
  - intros. reflexivity.
Qed.
Print Assumptions C43_fetch_refuted.

(** C44: with only conditional B-form branches inside, an execution stays at
    the words of the sequence or stands at a breakpoint; the words of the
    sequence are as they were. *)
Theorem C44_covered : forall m p n m1 l b,
  p mod 4 = 0 -> p < MAXP -> (n < 32)%nat -> sequence m p n ->
  (forall k w, (k <= n)%nat -> m (p + 4 * N.of_nat k) = Some w -> ~ transfers w) ->
  with_breakpoints m (exit_point m p n) m1 -> run_to m p n l b ->
  (at_word p n b /\ m1 b = m b) \/ (~ at_word p n b /\ m1 b = Some BREAKPOINT_INSN).
Proof. exact stops. Qed.
Print Assumptions C44_covered.

(** No breakpoint stands inside the sequence. *)
Theorem C44_outside : forall m p n x, exit_point m p n x -> ~ inside p n x.
Proof. exact exit_outside. Qed.
Print Assumptions C44_outside.

(* lwarx; b .+12; stwcx.; nop; nop *)
Definition goto : mem := mem_of 4096 [0x7d201828; 0x4800000c; 0x7d40192d; 0x60000000; 0x60000000; 0x60000000].
(** With an unconditional branch inside the program runs away. *)
Theorem C44_unconditional_refuted :
  sequence goto 4096 2 /\ run_to goto 4096 2 [4096; 4100] 4112 /\ ~ at_word 4096 2 4112 /\
  forall m1, with_breakpoints goto (exit_point goto 4096 2) m1 -> m1 4112 = Some 0x60000000.
Proof.
  split; [|split; [|split]].
  - split; [|split; [|split]].
    + intros k Hk. destruct k as [|[|[|k]]]; [discriminate..|lia].
    + intros w E. vm_compute in E. injection E as <-. vm_compute. auto.
    + intros k w Hk E. destruct k as [|[|k]]; [| |lia]; vm_compute in E; injection E as <-;
        intros (H0 & H & _); vm_compute in H0, H; intuition discriminate.
    + intros w E. vm_compute in E. injection E as <-. vm_compute. intuition.
  - apply (run_step goto 4096 2 [4096] 4100).
    + apply (run_step goto 4096 2 [] 4096); [constructor|exists 0%nat; split; [lia|reflexivity]|].
      exists 0x7d201828. split; [reflexivity|]. left. reflexivity.
    + exists 1%nat. split; [lia|reflexivity].
    + exists 0x4800000c. split; [reflexivity|]. right. right. right. left. reflexivity.
  - intros (k & Hk & E). lia.
  - intros m1 H. destruct (H 4112) as [_ W]. rewrite W; [reflexivity|].
    intros [X|(_ & k & w & Hk & E & Hb & _)]; [vm_compute in X; discriminate|].
    destruct k as [|[|k]]; [| |lia]; vm_compute in E; injection E as <-; vm_compute in Hb; discriminate.
Qed.
Print Assumptions C44_unconditional_refuted.

(** C53: the callback gets every word from the start to the stopping place,
    or none when that lies before the start. *)
Theorem C53_reported : forall start pc a,
  start mod 4 = 0 -> pc mod 4 = 0 ->
  (In a (calls start pc) <-> start <= a <= pc /\ a mod 4 = 0).
Proof. exact calls_spec. Qed.
Print Assumptions C53_reported.

(** For an execution without taken branches these are the executed
    instructions and the next one. *)
Theorem C53_straight : forall p n,
  calls p (region_end p n) = straight p n ++ [region_end p n].
Proof. exact calls_straight. Qed.
Print Assumptions C53_straight.

Theorem C53_returned : forall start pc,
  start <= pc -> start mod 4 = 0 -> pc mod 4 = 0 ->
  pdiff (start + 4 * N.of_nat (length (calls start pc))) pc = 1.
Proof. exact calls_pdiff. Qed.
Print Assumptions C53_returned.

(* lwarx; bne .+16; nop; stwcx.; nop; nop *)
Definition skip : mem := mem_of 4096 [0x7d201828; 0x40820010; 0x60000000; 0x7d40192d; 0x60000000; 0x60000000; 0x60000000].
(* lwarx; bne .-8; stwcx.; preceded by two nops *)
Definition back : mem := mem_of 4088 [0x60000000; 0x60000000; 0x7d201828; 0x4082fff4; 0x7d40192d; 0x60000000; 0x60000000].
(** With a taken branch the store that was not executed is reported, and a
    sequence left backwards is not reported at all. *)
Theorem C53_taken_refuted :
  run_to skip 4096 3 [4096; 4100] 4116 /\ run_to back 4096 2 [4096; 4100] 4088 /\
  (exists m', step_over_atomic false any (fun m1 => (m1, Illegal 4116)) true skip 4096
     = Stepped m' 4116 [4096; 4100; 4104; 4108; 4112; 4116] 1) /\
  (exists m', step_over_atomic false any (fun m1 => (m1, Illegal 4088)) true back 4096
     = Stepped m' 4088 [] 2).
Proof.
  split; [|split; [|split]].
  - apply (run_step skip 4096 3 [4096] 4100).
    + apply (run_step skip 4096 3 [] 4096); [constructor|exists 0%nat; split; [lia|reflexivity]|].
      exists 0x7d201828. split; [reflexivity|]. left. reflexivity.
    + exists 1%nat. split; [lia|reflexivity].
    + exists 0x40820010. split; [reflexivity|]. right. left. split; reflexivity.
  - apply (run_step back 4096 2 [4096] 4100).
    + apply (run_step back 4096 2 [] 4096); [constructor|exists 0%nat; split; [lia|reflexivity]|].
      exists 0x7d201828. split; [reflexivity|]. left. reflexivity.
    + exists 1%nat. split; [lia|reflexivity].
    + exists 0x4082fff4. split; [reflexivity|]. right. left. split; reflexivity.
  - eexists. vm_compute. reflexivity.
  - eexists. vm_compute. reflexivity.
Qed.
Print Assumptions C53_taken_refuted.

(* A branch inside to the start, one to just behind and a duplicate: the
   program is unchanged behind it, on both kinds of host. *)
Definition dup : mem := mem_of 4096
  [0x7d201828; 0x4082fffc; 0x40820010; 0x4082000c; 0x40820008; 0x7d40192d; 0x60000000; 0x60000001].
Example C43_ex : forall be,
  match step_over_atomic be any (fun m1 => (m1, Illegal 4120)) true dup 4096 with
  | Stepped m' pc cs ret =>
      map m' [4096; 4100; 4104; 4108; 4112; 4116; 4120; 4124]
        = map dup [4096; 4100; 4104; 4108; 4112; 4116; 4120; 4124] /\
      cs = [4096; 4100; 4104; 4108; 4112; 4116; 4120] /\ ret = 1
  | _ => False
  end.
Proof. intros []; vm_compute; auto. Qed.
(* The breakpoint is there while the program runs. *)
Example C43_ex_running : forall be,
  match step_over_atomic be any (fun m1 => (fun a => if a =? 8192 then m1 4120 else m1 a, Illegal 4120)) true dup 4096 with
  | Stepped m' pc cs ret => m' 8192 = Some BREAKPOINT_INSN /\ m' 4120 = Some 0x60000000
  | _ => False
  end.
Proof. intros []; vm_compute; auto. Qed.
