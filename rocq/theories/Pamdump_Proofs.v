(** The text of dump_pam() and print_raw_medoids(). *)
Require Import NArith PeanoNat List Bool Lia ZifyBool ZifyN ZifyNat.
Require Import Verif.Word Verif.Matrix_Model Verif.Matrix_Spec Verif.Pam_Model Verif.Pam_Spec Verif.Vtext_Spec
  Verif.Bbvtext_Model Verif.Bbvtext_Spec Verif.Pamdump_Model Verif.Pamdump_Spec.
Require Verif.Vtext_Proofs Verif.Matrix_Proofs Verif.Pam_Proofs Verif.Bbvtext_Proofs.
Import ListNotations.
Local Open Scope N_scope.
Local Open Scope list_scope.

Definition spaced (l : list N) : list N := flat_map (fun v => ld v ++ [32]) l.
Lemma numbers_spaced l : numbers (spaced l) = List.map (fun v => v mod 2 ^ 64) l.
Proof.
  assert (X : split 32 (spaced l) = List.map ld l ++ [[]]).
  { induction l as [|v l IH]; [reflexivity|]. cbn [spaced flat_map List.map]. rewrite <- app_assoc. cbn [app].
    rewrite Vtext_Proofs.split_app, Vtext_Proofs.split_none by (apply Bbvtext_Proofs.ld_no; lia). fold (spaced l). rewrite IH. reflexivity. }
  unfold numbers. rewrite X, removelast_last, map_map. apply map_ext. intros v. apply Bbvtext_Proofs.number_ld.
Qed.
Lemma spaced_line l : ~ In 10 (spaced l).
Proof.
  intros I. unfold spaced in I. apply in_flat_map in I as (v & _ & I). apply in_app_or in I as [I|[I|[]]]; [|discriminate].
  revert I. apply Bbvtext_Proofs.ld_no. lia.
Qed.

Lemma nth_error_ext {A} : forall a b : list A, (forall n, nth_error a n = nth_error b n) -> a = b.
Proof.
  induction a as [|x a IH]; intros [|y b] E; [reflexivity|discriminate (E 0%nat)|discriminate (E 0%nat)|].
  pose proof (E 0%nat) as X. injection X as <-. f_equal. apply IH. intros n. exact (E (S n)).
Qed.

Section MATRIX.
Variable m : matrix.
Lemma nearest_find : forall medoids i p ret cost, nearest_loop m medoids i p ret cost
  = match find_loop m medoids i p ret cost with POk r => POk (fst r) | PErr e => PErr e end.
Proof.
  induction medoids as [|a medoids IH]; intros i p ret cost; [reflexivity|]. cbn [nearest_loop find_loop].
  destruct (dist m p a) as [s|]; [|reflexivity]. cbn [p_bind]. destruct (s <? cost); apply IH.
Qed.

Lemma replace_other : forall l n k v, k <> n -> nth_error (md_replace n l v) k = nth_error l k.
Proof. induction l as [|x l IH]; intros [|n] [|k] v D; try reflexivity; try congruence. cbn. apply IH. congruence. Qed.
Lemma replace_same : forall l n v, (n < List.length l)%nat -> nth_error (md_replace n l v) n = Some v.
Proof. induction l as [|x l IH]; intros [|n] v D; cbn in *; try lia; [reflexivity|]. apply IH. lia. Qed.
Lemma report_counts medoids : forall n p tmp tmp', report_loop m n p medoids tmp = POk tmp' ->
  N.of_nat (List.length tmp) <= 2 ^ 64 -> Forall (fun t => md_count t < 2 ^ 64) tmp ->
  exists ids, dump_loop m n p medoids = POk (spaced ids) /\ List.length ids = n /\ List.length tmp' = List.length tmp
  /\ Forall (fun i => i < 2 ^ 64) ids
  /\ forall j t, nth_error tmp j = Some t -> exists t', nth_error tmp' j = Some t'
     /\ md_count t' = (md_count t + N.of_nat (count_occ N.eq_dec ids (N.of_nat j))) mod 2 ^ 64.
Proof.
  induction n as [|n IH]; intros p tmp tmp' E L F; cbn [report_loop dump_loop] in *.
  - injection E as <-. exists []. repeat split; [constructor|]. intros j t N. exists t. split; [exact N|]. cbn [count_occ].
    rewrite N.add_0_r, N.mod_small; [reflexivity|]. rewrite Forall_forall in F. apply F. exact (nth_error_In _ _ N).
  - rewrite nearest_find. unfold find_medoid in E. destruct (find_loop m medoids 0 p UMAX UMAX) as [[i c]|]; cbn [p_bind fst snd] in *; [|discriminate].
    unfold md_get in E. destruct (i <? N.of_nat (List.length tmp)) eqn:B; [|discriminate].
    destruct (nth_error tmp (N.to_nat i)) as [t0|] eqn:T0; [|discriminate].
    set (t1 := if (c =? 0) && negb (md_found t0) then mk_md true p (md_count t0) else t0) in E. cbv zeta in E.
    assert (C1 : md_count t1 = md_count t0) by (unfold t1; destruct ((c =? 0) && negb (md_found t0)); reflexivity).
    set (t2 := mk_md _ _ _) in E. assert (C2 : md_count t2 = (md_count t0 + 1) mod 2 ^ 64) by (unfold t2; cbn [md_count]; rewrite C1; reflexivity).
    apply IH in E as (ids & A1 & A2 & A3 & A4 & A5).
    + exists (i :: ids). rewrite A1. cbn [p_bind]. split; [cbn [spaced flat_map]; rewrite <- app_assoc; reflexivity|].
      split; [cbn; congruence|]. rewrite Pam_Proofs.md_replace_len in A3. split; [exact A3|]. split; [constructor; [lia|exact A4]|].
      intros j t N. destruct (Nat.eq_dec j (N.to_nat i)) as [->|D].
      * destruct (A5 (N.to_nat i) t2) as (t' & N' & Q); [apply replace_same; lia|]. exists t'. split; [exact N'|]. rewrite Q, C2.
        assert (t = t0) by congruence. subst t. rewrite !N2Nat.id. cbn [count_occ]. destruct (N.eq_dec i i); [|congruence].
        rewrite N.add_mod_idemp_l by discriminate. f_equal. lia.
      * destruct (A5 j t) as (t' & N' & Q); [rewrite replace_other by exact D; exact N|]. exists t'. split; [exact N'|]. rewrite Q.
        cbn [count_occ]. destruct (N.eq_dec i (N.of_nat j)); [lia|reflexivity].
    + rewrite Pam_Proofs.md_replace_len. exact L.
    + apply Forall_forall. intros t I. apply In_nth_error in I as (k & I). destruct (Nat.eq_dec k (N.to_nat i)) as [->|D].
      * rewrite replace_same in I by lia. injection I as <-. rewrite C2. apply N.mod_lt. discriminate.
      * rewrite replace_other in I by exact D. rewrite Forall_forall in F. apply F. exact (nth_error_In _ _ I).
Qed.
Theorem counts medoids period out : print_medoids m medoids period = POk out -> N.of_nat (List.length medoids) <= 2 ^ 64 ->
  exists t, dump_pam m medoids = POk t /\ List.length (numbers t) = N.to_nat (m_rows m)
  /\ List.map snd out = List.map (fun j => N.of_nat (count_occ N.eq_dec (numbers t) (N.of_nat j)) mod 2 ^ 64) (seq 0 (List.length medoids)).
Proof.
  unfold print_medoids. destruct (report_loop _ _ _ _ _) as [tmp|] eqn:R; [|discriminate]. cbn [p_bind]. intros E L. injection E as <-.
  apply report_counts in R as (ids & A1 & A2 & A3 & A4 & A5).
  - exists (spaced ids). assert (Z : numbers (spaced ids) = ids).
    { rewrite numbers_spaced. clear -A4. induction A4 as [|i ids B F IH]; [reflexivity|]. cbn [List.map]. rewrite IH, N.mod_small by exact B. reflexivity. }
    rewrite Z. split; [exact A1|]. split; [exact A2|]. rewrite map_map. cbn [snd]. rewrite map_length in A3. rewrite <- A3.
    apply nth_error_ext. intros j. rewrite !nth_error_map. destruct (Nat.lt_ge_cases j (List.length tmp)) as [B|B].
    + destruct (A5 j md_zero) as (t' & N & Q).
      { rewrite nth_error_map. destruct (nth_error medoids j) eqn:X; [reflexivity|]. apply nth_error_None in X. lia. }
      rewrite N, (nth_error_nth' (seq 0 (List.length tmp)) 0%nat) by (rewrite seq_length; exact B). rewrite seq_nth by exact B.
      cbn [option_map]. rewrite Q. reflexivity.
    + rewrite (proj2 (nth_error_None tmp j)) by lia. rewrite (proj2 (nth_error_None (seq 0 _) j)) by (rewrite seq_length; lia). reflexivity.
  - rewrite map_length. exact L.
  - apply Forall_forall. intros t I. apply in_map_iff in I as (x & <- & _). reflexivity.
Qed.

Variables (rows cols : N) (f : N -> N -> N).
Hypothesis Hm : holds m rows cols f.

Lemma point_text a : a < rows -> forall n i, i + N.of_nat n = cols ->
  point_loop m n i a = POk (spaced (List.map (fun c => f a (i + N.of_nat c)) (seq 0 n))).
Proof.
  intros A. induction n as [|n IH]; intros i B; [reflexivity|]. cbn [point_loop]. unfold coord.
  rewrite (Matrix_Proofs.get_ok m rows cols f a i Hm A) by lia. cbn [p_bind]. rewrite IH by lia. cbn [p_bind seq List.map spaced flat_map].
  rewrite N.add_0_r, <- app_assoc. f_equal. f_equal. f_equal. unfold spaced. f_equal. rewrite <- seq_shift, map_map. apply map_ext. intros c. f_equal. lia.
Qed.
Theorem raw : forall medoids, Forall (fun a => a < rows) medoids -> exists t, print_raw_medoids m medoids = POk t
  /\ table t = List.map (fun a => List.map (fun c => f a (N.of_nat c) mod 2 ^ 64) (seq 0 (N.to_nat cols))) medoids.
Proof.
  intros medoids F.
  assert (X : print_raw_medoids m medoids
    = POk (Bbvtext_Proofs.unlines (List.map (fun a => spaced (List.map (fun c => f a (N.of_nat c)) (seq 0 (N.to_nat cols)))) medoids))).
  { induction F as [|a medoids A F IH]; [reflexivity|]. cbn [print_raw_medoids]. unfold print_point.
    assert (C : m_cols m = cols) by apply Hm. rewrite C, (point_text a A) by lia. cbn [p_bind]. rewrite IH. reflexivity. }
  eexists. split; [exact X|]. unfold table. rewrite Bbvtext_Proofs.lines_back.
  - rewrite map_map. apply map_ext. intros a. rewrite numbers_spaced, map_map. reflexivity.
  - apply Forall_map, Forall_forall. intros a _. apply spaced_line.
Qed.

Hypothesis Hu : no_undef f rows cols.
Theorem dump medoids : Forall (fun a => a < rows) medoids -> N.of_nat (List.length medoids) <= 2 ^ 64 ->
  exists t, dump_pam m medoids = POk t /\ List.length (numbers t) = N.to_nat rows
  /\ forall p, p < rows -> belongs (D f cols) medoids p (nth (N.to_nat p) (numbers t) 0).
Proof.
  intros F L. assert (R : m_rows m = rows) by apply Hm. unfold dump_pam. rewrite R.
  assert (M : forall x l b, In b l -> fold_right N.min x l <= b) by (clear; intros x; induction l as [|c l IH]; intros b I; [destruct I|]; destruct I as [->|I]; cbn; [lia|specialize (IH _ I); lia]).
  assert (G : forall n p, p + N.of_nat n = rows -> exists ids, dump_loop m n p medoids = POk (spaced ids) /\ List.length ids = n
    /\ forall k, (k < n)%nat -> belongs (D f cols) medoids (p + N.of_nat k) (nth k ids 0) /\ nth k ids 0 < 2 ^ 64).
  { induction n as [|n IH]; intros p B; [exists []; repeat split; intros; lia|]. cbn [dump_loop]. rewrite nearest_find.
    destruct (Pam_Proofs.find_loop_ok m rows (D f cols) R (Pam_Proofs.dist_ok m rows cols f Hm Hu) (fun a b Ha Hb => Pam_Proofs.D_sym f rows cols a b Hu Ha Hb) (Pam_Proofs.D_self f cols) medoids p F ltac:(lia) 0 UMAX UMAX) as (i & E & Q).
    rewrite E. cbn [p_bind fst]. destruct (IH (p + 1)) as (ids & A1 & A2 & A3); [lia|]. rewrite A1. cbn [p_bind]. exists (i :: ids).
    split; [cbn [spaced flat_map]; rewrite <- app_assoc; reflexivity|]. split; [cbn; congruence|]. intros [|k] K.
    - cbn [nth N.of_nat]. rewrite N.add_0_r. destruct Q as [[-> Q]|(j & a & Q1 & Q2 & Q3 & Q4 & Q5)].
      + split; [|reflexivity]. left. split; [reflexivity|]. apply Forall_forall. intros b I. change (2 ^ 64 - 1) with UMAX. rewrite <- Q at 1.
        apply M. apply in_map. exact I.
      + rewrite N.add_0_l in Q2. assert (J : (j < List.length medoids)%nat) by (apply nth_error_Some; congruence). split; [|lia].
        right. exists j, a. split; [exact Q1|]. split; [exact Q2|]. split; [|exact Q5]. apply Forall_forall. intros b I. rewrite Q3.
        apply M. apply in_map. exact I.
    - cbn [nth]. replace (p + N.of_nat (S k)) with (p + 1 + N.of_nat k) by lia. apply A3. lia. }
  destruct (G (N.to_nat rows) 0) as (ids & A1 & A2 & A3); [lia|]. exists (spaced ids). split; [exact A1|]. rewrite numbers_spaced.
  split; [rewrite map_length; exact A2|]. intros p B. destruct (A3 (N.to_nat p)) as [X Y]; [lia|].
  rewrite (map_nth (fun v => v mod 2 ^ 64) ids 0 (N.to_nat p) : nth _ _ 0 = _), N.mod_small by exact Y. rewrite N.add_0_l, N2Nat.id in X. exact X.
Qed.
End MATRIX.
