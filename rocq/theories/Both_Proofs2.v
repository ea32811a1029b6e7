(** The two logs of ptracer (C74). *)
Require Import Arith NArith ZArith List Bool Lia ZifyBool ZifyN ZifyNat.
Require Import Verif.Word Verif.Codec_Types Verif.Step_Model Verif.Storage_Model Verif.Tracer_Model.
Require Import Verif.Both_Model Verif.Both_Spec Verif.Both_Proofs.
Require Verif.Pids_Model Verif.Regs_Model Verif.Regs_Spec.
Import ListNotations.
Local Open Scope N_scope.

Lemma xlate_out xl e s pc ea i s' o : xlate xl e s pc ea i = Some (s', o) ->
  t_out s' = t_out s /\ t_skip s' = t_skip s /\ t_left s' = t_left s /\ t_pids s' = t_pids s /\ t_done s' = t_done s.
Proof.
  unfold xlate. destruct xl.
  - destruct (Pagemap_Model.ea_to_pa _ _ _ _); intros E; try discriminate E; injection E as <- _; repeat split.
  - intros E. injection E as <- _. repeat split.
Qed.
Lemma record_out xl e s pc insn s' : record xl e s pc insn = Some s' ->
  (exists q, t_out s' = t_out s ++ [q] /\ q_insn_addr q = pc /\ q_insn q = insn)
  /\ t_skip s' = t_skip s /\ t_left s' = t_left s /\ t_pids s' = t_pids s /\ t_done s' = t_done s.
Proof.
  unfold record. destruct (e_gprs e) as [g|]; [|discriminate].
  destruct (xlate xl e s pc pc true) as [[s1 ira]|] eqn:X1; [|discriminate].
  apply xlate_out in X1. destruct X1 as (O & K & L & P & D).
  destruct (is_storage_insn insn g) as [|a z|].
  - intros E. injection E as <-. cbn. rewrite O. repeat split; try assumption. eexists. repeat split.
  - destruct (xlate xl e s1 pc a false) as [[s2 dra]|] eqn:X2; [|discriminate].
    apply xlate_out in X2. destruct X2 as (O2 & K2 & L2 & P2 & D2). intros E. injection E as <-. cbn. rewrite O2, O.
    repeat split; try congruence. eexists. repeat split.
  - discriminate.
Qed.
Lemma insns_app a b : Regs_Spec.insns (a ++ b) = Regs_Spec.insns a ++ Regs_Spec.insns b.
Proof. apply flat_map_app. Qed.
Lemma insns_regs l : Regs_Spec.insns (List.map Regs_Model.IReg l) = [].
Proof. induction l as [|x l IH]; [reflexivity|exact IH]. Qed.

Section RUNS.
  Variable be : bool. Variable max : nat. Variable xl : bool. Variable tp : Z.
  Implicit Types ans : event -> N -> option Regs_Model.answer.

  Lemma describe_insns dump ans e pc insn p l x : describe be dump ans e pc insn p l = Some x ->
    Regs_Spec.insns (snd x) = Regs_Spec.insns l ++ [(pc, insn)].
  Proof.
    unfold describe. destruct dump.
    - destruct (ans e pc) as [a|]; [|discriminate]. generalize (Regs_Model.print_state (negb be) p (Regs_Model.get_state (negb be) a)).
      generalize (Regs_Model.get_state (negb be) a). intros st ls E. injection E as <-. cbn [snd].
      rewrite !insns_app, insns_regs. reflexivity.
    - intros E. injection E as <-. cbn [snd]. now rewrite insns_app.
  Qed.

  (** Both logs hold the same instructions. *)
  Theorem same_insns dump ans skip left t evs s c :
    alive (bloop be max xl true true dump ans tp (bstart tp skip left t) evs) = Some (s, c) ->
    in_log s = in_file s.
  Proof.
    intros A.
    destruct (loop_sim be max xl true true dump true true dump ans ans tp (fun s s' => s = s' /\ in_log s = in_file s))
      with (s := bstart tp skip left t) (s' := bstart tp skip left t) (evs := evs) (x := (s, c)) as (s1 & _ & _ & H); try exact H.
    - intros ? ? [-> _]. reflexivity.
    - intros ? ? [-> _]. reflexivity.
    - intros ? ? r [-> H]. split; [reflexivity|exact H].
    - intros ? ? r [-> H]. split; [reflexivity|exact H].
    - intros e m x x' pc x1 [-> H] P. exists x1. split; [exact P|]. split; [reflexivity|].
      unfold print_both in P. destruct (negb (t_skip (b_t x') =? 0)); [injection P as <-; exact H|].
      destruct (read_insn be m pc) as [insn|]; [|discriminate P]. destruct (t_left (b_t x') =? 0); [injection P as <-; exact H|].
      destruct (describe be dump ans e pc insn (b_prev x') (b_log x')) as [[p l]|] eqn:D; [|discriminate P].
      destruct (record xl e _ pc insn) as [t1|] eqn:W; [|discriminate P]. injection P as <-.
      apply describe_insns in D. cbn [snd] in D. destruct (record_out _ _ _ _ _ _ W) as ((q & Q & QA & QI) & _).
      unfold in_log, in_file. cbn [b_log b_t]. rewrite D, Q, map_app. cbn [List.map]. rewrite QA, QI.
      unfold in_log, in_file in H. rewrite H. destruct (_ =? MINUS1); reflexivity.
    - split; reflexivity.
    - exact A.
  Qed.

  (** The ASCII log does not depend on -q, nor does anything the tracer does. *)
  Definition alike (s s' : both) : Prop :=
    b_log s = b_log s' /\ b_prev s = b_prev s' /\ t_skip (b_t s) = t_skip (b_t s') /\ t_left (b_t s) = t_left (b_t s')
    /\ t_pids (b_t s) = t_pids (b_t s') /\ t_done (b_t s) = t_done (b_t s').
  Theorem alone dump ans skip left t evs s c :
    alive (bloop be max xl true true dump ans tp (bstart tp skip left t) evs) = Some (s, c) ->
    exists s', alive (bloop be max xl true false dump ans tp (bstart tp skip left t) evs) = Some (s', c)
      /\ b_log s' = b_log s /\ t_done (b_t s') = t_done (b_t s) /\ t_pids (b_t s') = t_pids (b_t s) /\ t_out (b_t s') = [].
  Proof.
    intros A.
    destruct (loop_sim be max xl true true dump true false dump ans ans tp (fun s s' => alike s s' /\ t_out (b_t s') = []))
      with (s := bstart tp skip left t) (s' := bstart tp skip left t) (evs := evs) (x := (s, c)) as (s1 & E & (L & _ & _ & _ & P & D) & O).
    - intros ? ? [(_ & _ & _ & H & _) _]. exact H.
    - intros ? ? [(_ & _ & _ & _ & H & _) _]. exact H.
    - intros x x' r [(H1 & H2 & H3 & H4 & H5 & H6) H7]. unfold alike. cbn. rewrite H1, H2, H3, H4, H5, H6. repeat split. exact H7.
    - intros x x' r [(H1 & H2 & H3 & H4 & H5 & H6) H7]. unfold alike. cbn. rewrite H1, H2, H3, H4, H6. repeat split. exact H7.
    - intros e m x x' pc x1 [(H1 & H2 & H3 & H4 & H5 & H6) H7] P. unfold print_both in *. rewrite <- H3, <- H4, <- H1, <- H2.
      destruct (negb (t_skip (b_t x) =? 0)).
      { injection P as <-. eexists. split; [reflexivity|]. unfold alike. cbn. rewrite H1, H2, H3, H4, H5, H6. repeat split. exact H7. }
      destruct (read_insn be m pc) as [insn|]; [|discriminate P].
      destruct (t_left (b_t x) =? 0).
      { injection P as <-. eexists. split; [reflexivity|]. unfold alike. rewrite H1, H2, H3, H4, H5, H6. repeat split. exact H7. }
      destruct (describe be dump ans e pc insn (b_prev x) (b_log x)) as [[p l]|]; [|discriminate P].
      destruct (record xl e _ pc insn) as [t1|] eqn:W; [|discriminate P]. injection P as <-.
      destruct (record_out _ _ _ _ _ _ W) as (_ & K & LL & PP & DD).
      eexists. split; [reflexivity|]. unfold alike. cbn [b_log b_prev b_t].
      destruct (t_left (b_t x) =? MINUS1); cbn in *; repeat split; congruence.
    - split; [repeat split|reflexivity].
    - exact A.
    - exists s1. cbn [fst snd] in *. repeat split; congruence.
  Qed.

  (** The log is that of C70, for the calls of print_insn. *)
  Lemma limit_pred n : n <> 0 -> n < 2 ^ 64 ->
    exists k, limit n = k /\ k <> Some O
      /\ limit (if n =? MINUS1 then n else n - 1) = match k with Some j => Some (Nat.pred j) | None => None end.
  Proof.
    intros Z L. exists (limit n). split; [reflexivity|]. unfold limit, MINUS1. change (2 ^ 64) with 18446744073709551616 in L.
    destruct (n =? 18446744073709551615) eqn:E.
    - rewrite E. split; [discriminate|reflexivity].
    - replace (n - 1 =? 18446744073709551615) with false by lia. split; [intros X; injection X; lia|]. f_equal. lia.
  Qed.
  Definition logged dump ans (skip : nat) (left : option nat) (s : both) : Prop :=
    t_left (b_t s) < 2 ^ 64 /\
    exists cs, forall more, Regs_Model.log (negb be) dump skip left Regs_Model.zero_state (cs ++ more)
      = let (r, e) := Regs_Model.log (negb be) dump (N.to_nat (t_skip (b_t s))) (limit (t_left (b_t s))) (b_prev s) more in
        (b_log s ++ r, e).
  Theorem registers q dump ans skip left t evs s c : left < 2 ^ 64 ->
    alive (bloop be max xl true q dump ans tp (bstart tp skip left t) evs) = Some (s, c) ->
    exists cs, Regs_Model.log (negb be) dump (N.to_nat skip) (limit left) Regs_Model.zero_state cs = (b_log s, false).
  Proof.
    intros LT A.
    destruct (loop_sim be max xl true q dump true q dump ans ans tp
       (fun s s' => s = s' /\ logged dump ans (N.to_nat skip) (limit left) s))
      with (s := bstart tp skip left t) (s' := bstart tp skip left t) (evs := evs) (x := (s, c)) as (s1 & _ & _ & (_ & cs & H)).
    - intros ? ? [-> _]. reflexivity.
    - intros ? ? [-> _]. reflexivity.
    - intros ? ? r [-> H]. split; [reflexivity|exact H].
    - intros ? ? r [-> H]. split; [reflexivity|exact H].
    - intros e m x x' pc x1 [-> (B & cs & H)] P. exists x1. split; [exact P|]. split; [reflexivity|].
      unfold print_both in P. destruct (negb (t_skip (b_t x') =? 0)) eqn:K.
      { injection P as <-. split; [exact B|]. exists (cs ++ [(0, 0, None)]). intros more. rewrite <- app_assoc, H.
        cbn [app b_t on t_skip set_skip t_left b_prev b_log].
        replace (N.to_nat (t_skip (b_t x'))) with (S (N.to_nat (t_skip (b_t x') - 1))) by lia. reflexivity. }
      assert (K0 : t_skip (b_t x') = 0) by lia.
      destruct (read_insn be m pc) as [insn|]; [|discriminate P].
      destruct (t_left (b_t x') =? 0) eqn:Z; [injection P as <-; split; [exact B|now exists cs]|].
      destruct (limit_pred (t_left (b_t x'))) as (k & K1 & K2 & K3); [lia|exact B|].
      destruct (describe be dump ans e pc insn (b_prev x') (b_log x')) as [[p l]|] eqn:D; [|discriminate P].
      set (tt := if t_left (b_t x') =? MINUS1 then b_t x' else set_left (b_t x') (t_left (b_t x') - 1)) in P.
      assert (T : t_skip tt = 0 /\ t_left tt = (if t_left (b_t x') =? MINUS1 then t_left (b_t x') else t_left (b_t x') - 1))
        by (unfold tt; destruct (t_left (b_t x') =? MINUS1); split; try reflexivity; exact K0).
      destruct T as [T1 T2].
      assert (T3 : t_skip (b_t x1) = 0 /\ t_left (b_t x1) = t_left tt /\ b_prev x1 = p /\ b_log x1 = l).
      { destruct q.
        - destruct (record xl e tt pc insn) as [t1|] eqn:W; [|discriminate P]. injection P as <-.
          destruct (record_out _ _ _ _ _ _ W) as (_ & X1 & X2 & _). cbn. repeat split; congruence.
        - injection P as <-. repeat split; assumption. }
      destruct T3 as (T4 & T5 & T6 & T7). split; [rewrite T5, T2; destruct (_ =? MINUS1); lia|].
      exists (cs ++ [(pc, insn, ans e pc)]). intros more. rewrite <- app_assoc, H. cbn [app].
      rewrite K0, T4, T5, T2, K3, K1, T6, T7. change (N.to_nat 0) with O. cbn [Regs_Model.log].
      clear - D K2. destruct k as [[|k]|]; [now destruct K2| |].
      + unfold describe in D. destruct dump.
        * destruct (ans e pc) as [a|]; [|discriminate D].
          generalize dependent (Regs_Model.get_state (negb be) a). intros cur D.
          injection D as <- <-. destruct (Regs_Model.log _ _ _ _ _ more) as [r x]. f_equal. now rewrite <- !app_assoc.
        * injection D as <- <-. destruct (Regs_Model.log _ _ _ _ _ more) as [r x]. f_equal. now rewrite <- !app_assoc.
      + unfold describe in D. destruct dump.
        * destruct (ans e pc) as [a|]; [|discriminate D].
          generalize dependent (Regs_Model.get_state (negb be) a). intros cur D.
          injection D as <- <-. destruct (Regs_Model.log _ _ _ _ _ more) as [r x]. f_equal. now rewrite <- !app_assoc.
        * injection D as <- <-. destruct (Regs_Model.log _ _ _ _ _ more) as [r x]. f_equal. now rewrite <- !app_assoc.
    - split; [reflexivity|]. split; [exact LT|]. exists []. intros more. cbn [app bstart b_t start t_skip t_left b_prev b_log].
      destruct (Regs_Model.log _ _ _ _ _ more). reflexivity.
    - exact A.
    - exists cs. specialize (H []). rewrite app_nil_r in H. rewrite H. cbn. now rewrite app_nil_r.
  Qed.
End RUNS.
