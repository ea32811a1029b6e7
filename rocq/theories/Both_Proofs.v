(** Runs of ptracer with different logs (C74). *)
Require Import Arith NArith ZArith List Bool Lia.
Require Import Verif.Word Verif.Codec_Types Verif.Step_Model Verif.Storage_Model Verif.Tracer_Model.
Require Import Verif.Both_Model Verif.Both_Spec.
Require Verif.Pids_Model Verif.Regs_Model Verif.Regs_Spec.
Import ListNotations.
Local Open Scope N_scope.

(** ** The qtrace side is the tracer of C58 *)
Section SIDE.
  Variable be : bool. Variable max : nat. Variable xl ascii dump : bool.
  Variable ans : event -> N -> option Regs_Model.answer.
  Variable tp : Z.
  Hypothesis ANS : forall e pc, ans e pc <> None.

  Lemma describes e pc insn p l : exists x, describe be dump ans e pc insn p l = Some x.
  Proof.
    unfold describe. destruct dump; [|eauto]. destruct (ans e pc) eqn:E; [eauto|]. now destruct (ANS e pc).
  Qed.
  Lemma print_side e m s pc :
    option_map b_t (print_both be xl ascii true dump ans e m s pc) = print_insn be xl e m (b_t s) pc.
  Proof.
    unfold print_both, print_insn. destruct (negb (t_skip (b_t s) =? 0)); [reflexivity|].
    destruct (read_insn be m pc) as [insn|]; [|reflexivity]. destruct (t_left (b_t s) =? 0); [reflexivity|].
    assert (D : exists x, (if ascii then describe be dump ans e pc insn (b_prev s) (b_log s) else Some (b_prev s, b_log s)) = Some x)
      by (destruct ascii; [apply describes|eauto]).
    destruct D as ([prev log] & ->). unfold record.
    destruct (e_gprs e); [|reflexivity]. destruct (xlate _ _ _ _ _ _) as [[t1 ira]|]; [|reflexivity].
    destruct (is_storage_insn _ _); try reflexivity. destruct (xlate _ _ _ _ _ _) as [[t2 dra]|]; reflexivity.
  Qed.
  Lemma prints_side e m l : forall s,
    option_map b_t (print_boths be xl ascii true dump ans e m s l) = print_insns be xl e m (b_t s) l.
  Proof.
    induction l as [|pc l IH]; intros s; [reflexivity|]. cbn [print_boths print_insns].
    rewrite <- (print_side e m s pc). destruct (print_both _ _ _ _ _ _ _ _ _ _) as [s1|]; [|reflexivity]. apply IH.
  Qed.
  Lemma ask_side e s r : traced (bask e s r) = ask e (b_t s) r.
  Proof. unfold bask, ask. destruct (e_going e); reflexivity. Qed.
  Lemma handle_side e s : traced (bhandle be max xl ascii true dump ans tp e s) = handle be max xl tp e (b_t s).
  Proof.
    unfold bhandle, handle. destruct (negb (e_stopped e)); [reflexivity|].
    destruct (_ || _ || _).
    { destruct (e_msg e); [|reflexivity]. destruct (Pids_Model.add_pid _ _ _) as [[t ?]|]; [|reflexivity]. apply ask_side. }
    destruct (e_event e =? PTRACE_EVENT_EXIT).
    { destruct (Pids_Model.remove_pid _ _); [|reflexivity]. destruct (_ =? _)%Z; [reflexivity|apply ask_side]. }
    destruct (e_sig e =? SIGSTKFLT); [apply ask_side|]. destruct (negb _); [apply ask_side|].
    unfold bstop, traced_stop. destruct (e_pc e =? MINUS1); [reflexivity|].
    destruct (read_insn be (e_mem e) (e_pc e)) as [insn|]; [|reflexivity]. destruct (is_larx insn).
    - destruct (step_over_atomic _ _ _ _ _ _) as [m pc calls ret| | | | | ]; try reflexivity.
      change (asks (b_t s) [Cont (e_pid e) 0]) with (b_t (on (fun t => asks t [Cont (e_pid e) 0]) s)).
      rewrite <- prints_side. destruct (print_boths _ _ _ _ _ _ _ _ _ _); [|reflexivity]. apply ask_side.
    - destruct (if e_sig e =? SIGTRAP then _ else _) as [sig|]; [|reflexivity].
      rewrite <- print_side. destruct (print_both _ _ _ _ _ _ _ _ _ _) as [s1|]; [|reflexivity]. cbn [option_map].
      destruct (t_left (b_t s1) =? 0); [reflexivity|apply ask_side].
  Qed.
  Theorem loop_side evs : forall s,
    traced (bloop be max xl ascii true dump ans tp s evs) = main_loop be max xl tp (b_t s) evs.
  Proof.
    induction evs as [|e evs IH]; intros s; [reflexivity|]. cbn [bloop main_loop].
    rewrite <- handle_side. destruct (bhandle _ _ _ _ _ _ _ _ _ _); try reflexivity. apply IH.
  Qed.
End SIDE.

(** ** Two runs side by side *)
Section SIM.
  Variable be : bool. Variable max : nat. Variable xl : bool.
  Variable a1 q1 d1 a2 q2 d2 : bool.
  Variable n1 n2 : event -> N -> option Regs_Model.answer.
  Variable tp : Z.
  Variable R : both -> both -> Prop.
  Hypothesis Rleft : forall s s', R s s' -> t_left (b_t s) = t_left (b_t s').
  Hypothesis Rpids : forall s s', R s s' -> t_pids (b_t s) = t_pids (b_t s').
  Hypothesis Rasks : forall s s' r, R s s' -> R (on (fun t => asks t r) s) (on (fun t => asks t r) s').
  Hypothesis Rset : forall s s' p, R s s' -> R (on (fun t => set_pids t p) s) (on (fun t => set_pids t p) s').
  Hypothesis Rprint : forall e m s s' pc s1, R s s' -> print_both be xl a1 q1 d1 n1 e m s pc = Some s1 ->
    exists s1', print_both be xl a2 q2 d2 n2 e m s' pc = Some s1' /\ R s1 s1'.

  Lemma prints_sim e m l : forall s s' s1, R s s' -> print_boths be xl a1 q1 d1 n1 e m s l = Some s1 ->
    exists s1', print_boths be xl a2 q2 d2 n2 e m s' l = Some s1' /\ R s1 s1'.
  Proof.
    induction l as [|pc l IH]; intros s s' s1 H P; cbn [print_boths] in *; [injection P as <-; eauto|].
    destruct (print_both _ _ _ _ _ _ e m s pc) as [s2|] eqn:E; [|discriminate P].
    destruct (Rprint _ _ _ _ _ _ H E) as (s2' & -> & H2). exact (IH _ _ _ H2 P).
  Qed.
  Definition out (r : bres) (x : both * bool) : Prop := alive r = Some x.
  Definition sim (r r' : bres) : Prop :=
    match r with
    | BDied _ => True
    | BClosed s => exists s', r' = BClosed s' /\ R s s'
    | BWaits s => exists s', r' = BWaits s' /\ R s s'
    end.
  Lemma ask_sim e s s' r : R s s' -> sim (bask e s r) (bask e s' r).
  Proof. intros H. unfold bask. destruct (e_going e); [|exact I]. eexists. split; [reflexivity|]. now apply Rasks. Qed.
  Lemma handle_sim e s s' : R s s' ->
    sim (bhandle be max xl a1 q1 d1 n1 tp e s) (bhandle be max xl a2 q2 d2 n2 tp e s').
  Proof.
    intros H. unfold bhandle. destruct (negb (e_stopped e)); [exact I|].
    rewrite <- (Rpids _ _ H). destruct (_ || _ || _).
    { destruct (e_msg e); [|exact I]. destruct (Pids_Model.add_pid _ _ _) as [[t ?]|]; [|exact I]. now apply ask_sim, Rset. }
    destruct (e_event e =? PTRACE_EVENT_EXIT).
    { destruct (Pids_Model.remove_pid _ _); [|exact I]. destruct (_ =? _)%Z; [|now apply ask_sim, Rset].
      eexists. split; [reflexivity|]. now apply Rset. }
    destruct (e_sig e =? SIGSTKFLT); [now apply ask_sim|]. destruct (negb _); [now apply ask_sim|].
    unfold bstop. destruct (e_pc e =? MINUS1); [exact I|].
    destruct (read_insn be (e_mem e) (e_pc e)) as [insn|]; [|exact I]. destruct (is_larx insn).
    - destruct (step_over_atomic _ _ _ _ _ _) as [m pc calls ret| | | | | ]; try exact I.
      destruct (print_boths be xl a1 q1 d1 n1 _ _ _ _) as [s1|] eqn:E; [|exact I].
      destruct (prints_sim _ _ _ _ _ _ (Rasks _ _ [Cont (e_pid e) 0] H) E) as (s1' & -> & H1). now apply ask_sim.
    - destruct (if e_sig e =? SIGTRAP then _ else _) as [sig|]; [|exact I].
      destruct (print_both be xl a1 q1 d1 n1 _ _ _ _) as [s1|] eqn:E; [|exact I].
      destruct (Rprint _ _ _ _ _ _ H E) as (s1' & -> & H1). rewrite <- (Rleft _ _ H1).
      destruct (t_left (b_t s1) =? 0); [|now apply ask_sim].
      eexists. split; [reflexivity|]. unfold detach_all_threads.
      pose proof (Rasks _ _ (List.map (fun p => Detach (Pids_Model.p_pid p))
        (firstn (Pids_Model.nr_pids (t_pids (b_t s1))) (Pids_Model.slots (t_pids (b_t s1))))) H1) as X.
      unfold on in *. cbn beta in *. rewrite <- (Rpids _ _ H1) at 1 2 || rewrite <- (Rpids _ _ H1). exact X.
  Qed.
  Theorem loop_sim evs : forall s s' x, R s s' -> alive (bloop be max xl a1 q1 d1 n1 tp s evs) = Some x ->
    exists s1, alive (bloop be max xl a2 q2 d2 n2 tp s' evs) = Some (s1, snd x) /\ R (fst x) s1.
  Proof.
    induction evs as [|e evs IH]; intros s s' x H; cbn [bloop].
    - cbn. intros E. injection E as <-. exists s'. split; [reflexivity|exact H].
    - pose proof (handle_sim e s s' H) as X. destruct (bhandle be max xl a1 q1 d1 n1 tp e s) as [t|t|t]; cbn [sim] in X.
      + discriminate.
      + destruct X as (t' & -> & T). cbn. intros E. injection E as <-. exists t'. split; [reflexivity|exact T].
      + destruct X as (t' & -> & T). apply IH. exact T.
  Qed.
End SIM.
