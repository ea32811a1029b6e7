(** Limits and checkpoints: proofs of C72. *)
Require Import Arith ZArith NArith List Bool Lia ZifyBool ZifyN ZifyNat.
Require Import Verif.Args_Model Verif.Args_Spec Verif.Args_Proofs2 Verif.Start_Model.
Import ListNotations.
Local Open Scope N_scope.

Lemma halve_done f : forall s new, max s <= nr_open s -> new < 2 ^ N.of_nat f ->
  exists c, halve f s new = Done (mk_limits c (max s) (nr_open s)) /\ c <= max s /\ c <= new
            /\ (new <= max s -> c = new) /\ (max s < new -> max s <= 2 * c).
Proof.
  induction f as [|f IH]; intros s new M B.
  - change (2 ^ N.of_nat 0) with 1 in B. assert (new = 0) by lia. subst. exists 0.
    cbn [halve]. unfold setrlimit. replace ((0 <=? max s) && (max s <=? nr_open s)) with true by lia.
    repeat split; lia.
  - cbn [halve]. unfold setrlimit. destruct ((new <=? max s) && (max s <=? nr_open s)) eqn:E.
    + exists new. repeat split; lia.
    + assert (X : max s < new) by lia. destruct (N.eqb_spec new 0) as [->|NZ]; [lia|].
      rewrite Nat2N.inj_succ, N.pow_succ_r' in B.
      assert (B' : new / 2 < 2 ^ N.of_nat f) by (apply N.div_lt_upper_bound; lia).
      destruct (IH s (new / 2) M B') as (c & -> & C1 & C2 & C3 & C4).
      assert (H : 2 * (new / 2) <= new < 2 * (new / 2) + 2).
      { pose proof (N.div_mod new 2 ltac:(lia)). pose proof (N.mod_lt new 2 ltac:(lia)). lia. }
      exists c. split; [reflexivity|]. split; [exact C1|]. split; [lia|]. split; [lia|].
      intros _. destruct (N.le_gt_cases (new / 2) (max s)) as [L|L]; [specialize (C3 L); lia|now apply C4].
Qed.

Theorem limit_raised s : max s <= nr_open s -> cur s <= max s ->
  exists s', setrlimit_open_files s = Done s' /\ max s' = max s /\ nr_open s' = nr_open s /\ cur s' <= max s
    /\ (16384 <= max s -> cur s <= cur s' /\ 16384 <= cur s')
    /\ N.min (max s) 16384 <= 2 * cur s'.
Proof.
  intros M C. unfold setrlimit_open_files. destruct (N.ltb_spec 16384 (cur s)) as [L|L].
  - exists s. repeat split; lia.
  - assert (B : 16384 < 2 ^ N.of_nat 15) by reflexivity.
    destruct (halve_done 15 s 16384 M B) as (c & -> & C1 & C2 & C3 & C4). eexists. split; [reflexivity|].
    cbn [cur max nr_open]. repeat split; try lia.
Qed.

Lemma halve_forever f : forall s new, nr_open s < max s -> halve f s new = Forever.
Proof.
  induction f as [|f IH]; intros s new M; cbn [halve]; unfold setrlimit;
  replace ((new <=? max s) && (max s <=? nr_open s)) with false by lia; [reflexivity|].
  destruct (new =? 0); [reflexivity|now apply IH].
Qed.
Theorem limit_hangs s : cur s <= 16384 -> nr_open s < max s -> setrlimit_open_files s = Forever.
Proof.
  intros C M. unfold setrlimit_open_files. replace (16384 <? cur s) with false by lia. now apply halve_forever.
Qed.

(** ** Decimal text *)
Fixpoint dec (fuel : nat) (n : N) : list N :=
  match fuel with O => [] | S f => (if n <? 10 then [] else dec f (n / 10)) ++ [n mod 10] end.
Lemma decimal_text f : forall n, decimal f n = text_of (dec f n).
Proof.
  induction f as [|f IH]; intros n; [reflexivity|]. cbn [decimal dec]. unfold text_of. rewrite map_app. cbn [List.map].
  destruct (n <? 10); [reflexivity|]. now rewrite IH.
Qed.
Lemma dec_digits f : forall n, Forall (fun d => d < 10) (dec f n).
Proof.
  induction f as [|f IH]; intros n; [constructor|]. cbn [dec]. apply Forall_app. split.
  - destruct (n <? 10); [constructor|apply IH].
  - constructor; [now apply N.mod_lt|constructor].
Qed.
Lemma value_app ds d : value_of (ds ++ [d]) = 10 * value_of ds + d.
Proof. unfold value_of. rewrite fold_left_app. reflexivity. Qed.
Lemma dec_value f : forall n, n < 10 ^ N.of_nat f -> value_of (dec f n) = n.
Proof.
  induction f as [|f IH]; intros n B.
  - change (10 ^ N.of_nat 0) with 1 in B. cbn. lia.
  - cbn [dec]. rewrite value_app. rewrite Nat2N.inj_succ, N.pow_succ_r' in B.
    pose proof (N.div_mod n 10 ltac:(lia)).
    destruct (N.ltb_spec n 10) as [L|L].
    + rewrite N.mod_small by exact L. cbn. lia.
    + rewrite IH; [lia|]. apply N.div_lt_upper_bound; lia.
Qed.
Lemma dec_length f : forall n k, (k <= f)%nat -> (1 <= k)%nat -> n < 10 ^ N.of_nat k -> (length (dec f n) <= k)%nat.
Proof.
  induction f as [|f IH]; intros n k KF K B; [lia|]. cbn [dec]. rewrite app_length. cbn [length].
  destruct (N.ltb_spec n 10) as [L|L]; [cbn; lia|].
  destruct k as [|k]; [lia|]. rewrite Nat2N.inj_succ, N.pow_succ_r' in B.
  destruct k as [|k]; [change (10 ^ N.of_nat 0) with 1 in B; lia|].
  assert (B' : n / 10 < 10 ^ N.of_nat (S k)) by (apply N.div_lt_upper_bound; lia).
  specialize (IH (n / 10) (S k) ltac:(lia) ltac:(lia) B'). lia.
Qed.
Lemma dec_nonempty f n : dec (S f) n <> [].
Proof. cbn [dec]. destruct (if n <? 10 then [] else dec f (n / 10)); discriminate. Qed.

Theorem dumps_right pid : pid < 10 ^ 6 -> dumped pid = Z.of_N pid.
Proof.
  intros B. unfold dumped, pidstr. rewrite decimal_text.
  pose proof (dec_length 10 pid 6 ltac:(lia) ltac:(lia) B) as L.
  rewrite firstn_all2 by (unfold text_of; rewrite map_length; exact L).
  assert (V : value_of (dec 10 pid) = pid).
  { apply dec_value. eapply N.lt_trans; [exact B|reflexivity]. }
  rewrite pid_text; [now rewrite V|apply dec_digits|apply dec_nonempty|].
  rewrite V. eapply N.lt_trans; [exact B|reflexivity].
Qed.

Lemma fold_bound ds : Forall (fun d => d < 10) ds -> value_of ds < 10 ^ N.of_nat (length ds).
Proof.
  rewrite <- (rev_involutive ds). generalize (rev ds) as r. clear ds. induction r as [|d r IH]; intros F.
  - reflexivity.
  - cbn [rev] in *. apply Forall_app in F. destruct F as [F D]. inversion D; subst.
    rewrite value_app, app_length. cbn [length]. rewrite Nat.add_1_r, Nat2N.inj_succ, N.pow_succ_r'.
    specialize (IH F). lia.
Qed.

Theorem dumps_wrong pid : 10 ^ 6 <= pid -> dumped pid <> Z.of_N pid.
Proof.
  intros B. unfold dumped, pidstr. rewrite decimal_text.
  unfold text_of. rewrite firstn_map. fold (text_of (firstn 6 (dec 10 pid))).
  assert (F : Forall (fun d => d < 10) (firstn 6 (dec 10 pid))).
  { pose proof (dec_digits 10 pid) as G. rewrite <- (firstn_skipn 6 (dec 10 pid)) in G. apply Forall_app in G. tauto. }
  assert (N0 : firstn 6 (dec 10 pid) <> []).
  { pose proof (dec_nonempty 9 pid). destruct (dec 10 pid); [now destruct H|]. discriminate. }
  pose proof (fold_bound _ F) as V.
  assert (L : (length (firstn 6 (dec 10 pid)) <= 6)%nat) by (rewrite firstn_length; lia).
  assert (V' : value_of (firstn 6 (dec 10 pid)) < 10 ^ 6).
  { eapply N.lt_le_trans; [exact V|]. change (10 ^ 6) with (10 ^ N.of_nat 6). apply N.pow_le_mono_r; lia. }
  rewrite pid_text; [|exact F|exact N0|eapply N.lt_trans; [exact V'|reflexivity]]. lia.
Qed.
