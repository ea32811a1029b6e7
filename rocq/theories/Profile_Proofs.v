(** Proofs for C78: blocks, totals. *)
Require Import NArith ZArith Arith List Bool Lia Permutation.
Require Import ZifyBool ZifyN ZifyNat.
Require Import Verif.Word Verif.Matrix_Model Verif.Matrix_Spec Verif.Matrix_Proofs.
Require Import Verif.Bbv_Model Verif.Bbv_Spec Verif.Bbv_Proofs Verif.Bbv_Proofs2 Verif.Bbv_Proofs3.
Require Import Verif.Pam_Proofs.
Require Import Verif.Profile_Model Verif.Profile_Spec.
Import ListNotations.
Local Open Scope N_scope.

(** ** Blocks are stretches *)
Lemma profile_step : forall l recs k r r', profile l recs ->
  nth_error recs k = Some r -> nth_error recs (S k) = Some r' -> snd r = false -> fst r' = (fst r + 4) mod 2 ^ 64.
Proof.
  induction l as [|[a p] l IH]; intros [|[a' b] recs] k r r' P E1 E2 F; cbn [profile] in P; try contradiction.
  - destruct k; discriminate E1.
  - destruct P as (-> & Pb & P). destruct k as [|k].
    + cbn in E1. injection E1 as <-. cbn [snd fst] in *. subst b. destruct recs as [|[a2 b2] recs]; [discriminate E2|].
      cbn in E2. injection E2 as <-. destruct l as [|[a3 p3] l]; [contradiction|]. cbn [profile] in P. destruct P as (-> & _).
      cbn [fst jump] in *. destruct (N.eq_dec a3 ((a + 4) mod 2 ^ 64)) as [E|E]; [exact E|].
      destruct p as [p|]; [|discriminate (Pb E)]. destruct Pb as [_ Pb]. discriminate (Pb (or_intror E)).
    + cbn [nth_error] in E1. eapply IH; eauto.
Qed.
Lemma stretch_part : forall l recs pre b post, profile l recs -> recs = pre ++ b ++ post ->
  (forall k r, nth_error b k = Some r -> (S k < length b)%nat -> snd r = false) -> stretch b.
Proof.
  intros l recs pre b post P E NB k r r' E1 E2.
  assert (L1 : (S k < length b)%nat) by (apply nth_error_Some; congruence).
  eapply (profile_step l recs (length pre + k)); [exact P| | |].
  - rewrite E, nth_error_app2 by lia. replace (length pre + k - length pre)%nat with k by lia.
    rewrite nth_error_app1 by lia. exact E1.
  - rewrite E, nth_error_app2 by lia. replace (S (length pre + k) - length pre)%nat with (S k) by lia.
    rewrite nth_error_app1 by lia. exact E2.
  - apply (NB k); assumption.
Qed.
Lemma block_body : forall b, is_block b -> forall k r, nth_error b k = Some r -> (S k < length b)%nat -> snd r = false.
Proof.
  intros b (body & last & -> & F & _) k r E L. rewrite app_length in L. cbn [length] in L.
  rewrite nth_error_app1 in E by lia. rewrite Forall_forall in F. apply F. eapply nth_error_In. exact E.
Qed.
Lemma stretches : forall l recs bs rest, profile l recs -> trace recs bs rest -> Forall stretch (bs ++ [rest]).
Proof.
  intros l recs bs rest P (E & FB & FR). apply Forall_app. split.
  - rewrite Forall_forall. intros b I. destruct (in_split _ _ I) as (b1 & b2 & ->).
    eapply (stretch_part l recs (concat b1) b (concat b2 ++ rest)); [exact P| |].
    + rewrite E, concat_app. cbn [concat]. rewrite <- !app_assoc. reflexivity.
    + apply block_body. rewrite Forall_forall in FB. apply FB. apply in_or_app. right. left. reflexivity.
  - constructor; [|constructor]. eapply (stretch_part l recs (concat bs) rest []); [exact P| |].
    + rewrite app_nil_r. exact E.
    + intros k r E1 _. rewrite Forall_forall in FR. apply FR. eapply nth_error_In. exact E1.
Qed.

(** ** Totals *)
Definition before (T : N) (ks : list block) : N :=
  fold_right (fun k s => (if k_end k <? T then k_len k else 0) + s) 0 ks.
Definition lens (ks : list block) : N := fold_right (fun k s => k_len k + s) 0 ks.
Lemma open_app : forall b Y, is_block b -> open_end (b ++ Y) = open_end Y.
Proof.
  intros b Y (body & last & -> & F & L). rewrite <- app_assoc. cbn [app].
  assert (E : existsb snd (last :: Y) = true) by (cbn [existsb]; rewrite L; reflexivity).
  induction body as [|r body IH].
  - cbn [app]. cbn [open_end]. rewrite E. reflexivity.
  - inversion F; subst. cbn [app open_end].
    assert (X : existsb snd (r :: body ++ last :: Y) = true).
    { apply existsb_exists. exists last. split; [right; apply in_or_app; right; left; reflexivity|exact L]. }
    rewrite X. apply IH. assumption.
Qed.
Lemma open_none : forall b, Forall (fun r : rec => snd r = false) b -> open_end b = length b.
Proof.
  intros b F. destruct b as [|r b]; [reflexivity|]. cbn [open_end].
  destruct (existsb snd (r :: b)) eqn:X; [|reflexivity]. apply existsb_exists in X. destruct X as (x & I & X).
  rewrite Forall_forall in F. rewrite (F x I) in X. discriminate X.
Qed.
Lemma block_pos : forall b, is_block b -> (0 < length b)%nat.
Proof. intros b (body & last & -> & _). rewrite app_length. cbn. lia. Qed.
Lemma before_late : forall bs t T, Forall is_block bs -> T <= t -> before T (timed t bs) = 0.
Proof.
  induction bs as [|b bs IH]; intros t T F L; [reflexivity|]. inversion F; subst. pose proof (block_pos b H1).
  cbn [timed before fold_right k_end]. rewrite (proj2 (N.ltb_ge _ _)) by lia.
  fold (before T (timed (t + N.of_nat (length b)) bs)). rewrite IH by (auto; lia). reflexivity.
Qed.
Lemma before_open : forall bs rest t T, Forall is_block bs -> Forall (fun r : rec => snd r = false) rest ->
  t <= T -> T <= t + N.of_nat (length (concat bs ++ rest)) ->
  before T (timed t bs) + N.of_nat (open_end (firstn (N.to_nat (T - t)) (concat bs ++ rest))) = T - t.
Proof.
  induction bs as [|b bs IH]; intros rest t T FB FR L1 L2.
  - cbn [concat app] in *. change (before T (timed t [])) with 0. rewrite open_none.
    + rewrite firstn_length. lia.
    + rewrite Forall_forall in *. intros x I. apply FR. rewrite <- (firstn_skipn (N.to_nat (T - t)) rest).
      apply in_or_app. left. exact I.
  - inversion FB as [|? ? B FB']; subst. cbn [concat] in *. rewrite <- app_assoc in *. rewrite app_length in L2.
    cbn [timed before fold_right k_end k_len]. fold (before T (timed (t + N.of_nat (length b)) bs)).
    pose proof (block_pos b B). destruct (N.le_gt_cases (t + N.of_nat (length b)) T) as [C|C].
    + rewrite (proj2 (N.ltb_lt _ _)) by lia. rewrite firstn_app. rewrite firstn_all2 by lia. rewrite open_app by exact B.
      replace (N.to_nat (T - t) - length b)%nat with (N.to_nat (T - (t + N.of_nat (length b)))) by lia.
      specialize (IH rest (t + N.of_nat (length b)) T FB' FR). lia.
    + rewrite (proj2 (N.ltb_ge _ _)) by lia. rewrite before_late by (auto; lia).
      rewrite firstn_app. replace (N.to_nat (T - t) - length b)%nat with O by lia. cbn [firstn]. rewrite app_nil_r.
      rewrite open_none; [rewrite firstn_length; lia|].
      destruct B as (body & last & -> & F & _). rewrite app_length in *. cbn [length] in *.
      rewrite firstn_app. replace (N.to_nat (T - t) - length body)%nat with O by lia. cbn [firstn]. rewrite app_nil_r.
      rewrite Forall_forall in *. intros x I. apply F. rewrite <- (firstn_skipn (N.to_nat (T - t)) body).
      apply in_or_app. left. exact I.
Qed.
Lemma lens_timed : forall bs t, lens (timed t bs) = N.of_nat (length (concat bs)).
Proof.
  induction bs as [|b bs IH]; intros t; [reflexivity|]. cbn [timed lens fold_right k_len concat].
  fold (lens (timed (t + N.of_nat (length b)) bs)). rewrite IH, app_length. lia.
Qed.
Lemma part_le : forall ks (f : block -> bool), 
  fold_right (fun k s => (if f k then k_len k mod 2 ^ 32 else 0) + s) 0 ks <= lens ks.
Proof.
  induction ks as [|k ks IH]; intros f; cbn [fold_right lens]; [lia|]. fold (lens ks). specialize (IH f).
  pose proof (N.mod_le (k_len k) (2 ^ 32) ltac:(discriminate)). destruct (f k); lia.
Qed.
Lemma row_exact : forall P ks i, lens ks < 2 ^ 32 ->
  sum_to (length (firsts (List.map k_addr ks)) + 1) (vector P ks i)
  = fold_right (fun k s => (if k_end k / P =? i then k_len k else 0) + s) 0 ks.
Proof.
  intros P ks i L. set (F := firsts (List.map k_addr ks)).
  replace (length F + 1)%nat with (S (length F)) by lia. cbn [sum_to].
  assert (Z : vector P ks i (N.of_nat (length F)) = 0).
  { unfold vector. rewrite Nat2N.id. fold F. rewrite (proj2 (nth_error_None F _)); [reflexivity|lia]. }
  rewrite Z, N.add_0_r. unfold vector. fold F. rewrite (sum_list F (weight P ks i)).
  assert (W : forall a, weight P ks i a
     = fold_right (fun k s => (if (k_end k / P =? i) && (k_addr k =? a) then k_len k mod 2 ^ 32 else 0) + s) 0 ks).
  { intros a. unfold weight. apply N.mod_small.
    eapply N.le_lt_trans; [apply (part_le ks (fun k => (k_end k / P =? i) && (k_addr k =? a)))|].
    change (2 ^ 32) with 4294967296 in L. change (2 ^ 64) with 18446744073709551616. lia. }
  assert (X : forall G : list N, fold_right (fun a s => weight P ks i a + s) 0 G
     = fold_right (fun a s => fold_right (fun k s => (if (k_end k / P =? i) && (k_addr k =? a) then k_len k mod 2 ^ 32 else 0) + s) 0 ks + s) 0 G).
  { induction G as [|x G IH]; [reflexivity|]. cbn [fold_right]. rewrite IH, W. reflexivity. }
  rewrite X, swap_sum; [|apply firsts_nodup|intros a Ha; now apply firsts_in].
  clear - L. induction ks as [|k ks IH]; [reflexivity|]. cbn [fold_right lens] in *. fold (lens ks) in L.
  rewrite IH by lia. rewrite N.mod_small by lia. reflexivity.
Qed.
Lemma sum_add : forall n f g, sum_to n (fun i => f i + g i) = sum_to n f + sum_to n g.
Proof. induction n as [|n IH]; intros; cbn [sum_to]; [reflexivity|]. rewrite IH. lia. Qed.
Lemma sum_zero : forall n, sum_to n (fun _ => 0) = 0.
Proof. induction n as [|n IH]; cbn [sum_to]; [reflexivity|]. rewrite IH. reflexivity. Qed.
Lemma sum_pick : forall n e v, sum_to n (fun i => if e =? i then v else 0) = if e <? N.of_nat n then v else 0.
Proof.
  induction n as [|n IH]; intros e v; cbn [sum_to].
  - destruct (N.ltb_spec e (N.of_nat 0)); [lia|reflexivity].
  - rewrite IH. destruct (N.ltb_spec e (N.of_nat n)), (N.ltb_spec e (N.of_nat (S n))), (N.eqb_spec e (N.of_nat n)); lia.
Qed.
Lemma total_before : forall P ks I, P <> 0 -> lens ks < 2 ^ 32 -> total P ks I = before (P * I) ks.
Proof.
  intros P ks I NZ L. unfold total.
  rewrite (sum_ext _ _ (fun i => fold_right (fun k s => (if k_end k / P =? i then k_len k else 0) + s) 0 ks))
    by (intros; apply row_exact; exact L).
  clear L. induction ks as [|k ks IH]; cbn [fold_right before].
  - apply sum_zero.
  - rewrite sum_add, IH. fold (before (P * I) ks). f_equal. rewrite sum_pick, N2Nat.id.
    replace (k_end k / P <? I) with (k_end k <? P * I); [reflexivity|].
    destruct (N.ltb_spec (k_end k) (P * I)) as [A|A]; symmetry.
    + apply N.ltb_lt. apply N.div_lt_upper_bound; assumption.
    + apply N.ltb_ge. apply N.div_le_lower_bound; assumption.
Qed.
Lemma accounts : forall P recs bs rest, P <> 0 -> trace recs bs rest -> N.of_nat (length recs) < 2 ^ 32 ->
  let I := N.of_nat (length recs) / P in
  total P (timed 0 bs) I + N.of_nat (open_end (firstn (N.to_nat (P * I)) recs)) = P * I.
Proof.
  intros P recs bs rest NZ (E & FB & FR) L I.
  assert (LB : lens (timed 0 bs) < 2 ^ 32).
  { rewrite lens_timed. rewrite E, app_length in L. lia. }
  rewrite total_before by assumption.
  pose proof (N.mul_div_le (N.of_nat (length recs)) P NZ) as LE. fold I in LE.
  pose proof (before_open bs rest 0 (P * I) FB FR ltac:(lia)) as B. rewrite <- E, N.sub_0_r in B. apply B. lia.
Qed.
