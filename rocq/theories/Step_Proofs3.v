Require Import NArith ZArith List Bool Lia Arith.
Require Import ZifyBool ZifyN ZifyNat.
Require Import Verif.Word Verif.Storage_Spec Verif.Storage_Proofs Verif.Step_Model Verif.Step_Spec
  Verif.Step_Proofs Verif.Step_Proofs2.
Import ListNotations.
Local Open Scope N_scope.

Lemma mod4_add p k : p mod 4 = 0 -> (p + 4 * k) mod 4 = 0.
Proof. lia. Qed.

Lemma exit_kept m p n stop bs :
  ok m -> p mod 4 = 0 -> p + 4 * N.of_nat (S n) < w64 -> stop = p + 4 * N.of_nat (S n) ->
  (forall x, In x bs <-> In x [] \/ exists k w, (k < n)%nat /\
     m (p + 4 * N.of_nat k) = Some w /\ is_branch w = true /\
     x = branch_target w (p + 4 * N.of_nat k)) ->
  forall x, In x (kept (prune p stop (bs ++ [stop]))) <-> exit_point m p n x.
Proof.
  intros Hm Hp4 Hp -> Hb x.
  assert (Hal : forall x, x mod 4 = 0 -> x <> MINUS1).
  { intros y Hy ->. discriminate. }
  assert (Hbs : In x bs <-> exists k w, (k < n)%nat /\ m (p + 4 * N.of_nat k) = Some w /\ bform w /\
                  x = target w (p + 4 * N.of_nat k)).
  { rewrite Hb. split.
    - intros [[]|(k & w & Hk & Hw & Hbr & Hx)]. exists k, w.
      rewrite <- is_branch_iff by (eapply Hm; eauto). repeat split; auto.
      rewrite <- target_eq; [exact Hx|eapply Hm; eauto|lia].
    - intros (k & w & Hk & Hw & Hbr & Hx). right. exists k, w.
      rewrite is_branch_iff by (eapply Hm; eauto). repeat split; auto.
      rewrite target_eq; [exact Hx|eapply Hm; eauto|lia]. }
  unfold exit_point, inside, region_end.
  rewrite in_kept. split.
  - intros [Hin Hne]. rewrite prune_in, in_app_iff in Hin by assumption. cbn [In] in Hin.
    destruct Hin as [[Hx|[Hx|[]]] Hout]; [|left; auto].
    right. split; [exact Hout|]. now apply Hbs.
  - intro H.
    assert (Hx : x mod 4 = 0).
    { destruct H as [->|(_ & k & w & Hk & Hw & _ & ->)]; [now apply mod4_add|].
      apply target_aligned. now apply mod4_add. }
    split; [|now apply Hal]. rewrite prune_in, in_app_iff by now apply Hal. cbn [In].
    destruct H as [->|[Ho He]].
    + split; [auto|]. clear. lia.
    + split; [|exact Ho]. left. now apply Hbs.
Qed.

Lemma bounded_dec (Q : nat -> Prop) n : (forall k, Q k \/ ~ Q k) ->
  (exists k, (k < n)%nat /\ Q k) \/ ~ (exists k, (k < n)%nat /\ Q k).
Proof.
  intro H. induction n as [|n IH].
  - right. intros (k & Hk & _). lia.
  - destruct IH as [(k & Hk & Hq)|IH]; [left; exists k; split; [lia|exact Hq]|].
    destruct (H n) as [Hq|Hq]; [left; exists n; split; [lia|exact Hq]|].
    right. intros (k & Hk & Hk'). destruct (Nat.eq_dec k n) as [->|Hne]; [contradiction|].
    apply IH. exists k. split; [lia|exact Hk'].
Qed.
Lemma exit_dec m p n x : exit_point m p n x \/ ~ exit_point m p n x.
Proof.
  unfold exit_point.
  destruct (bounded_dec (fun k => exists w, m (p + 4 * N.of_nat k) = Some w /\ bform w /\
    x = target w (p + 4 * N.of_nat k)) n) as [H|H].
  - intro k. destruct (m (p + 4 * N.of_nat k)) as [w|].
    + unfold bform. destruct (N.eq_dec (bits w 0 6) 16) as [Hb|Hb].
      * destruct (N.eq_dec x (target w (p + 4 * N.of_nat k))) as [Hx|Hx].
        -- left. exists w. auto.
        -- right. intros (w' & E & _ & Hx'). congruence.
      * right. intros (w' & E & Hb' & _). congruence.
    + right. intros (w' & E & _). congruence.
  - destruct H as (k & Hk & w & Hw).
    destruct (N.eq_dec x (region_end p n)) as [Hx|Hx]; [auto|].
    unfold inside. destruct ((p <=? x) && (x <? region_end p n)) eqn:E.
    + right. intros [?|[? _]]; lia.
    + left. right. split; [lia|]. exists k, w. tauto.
  - destruct (N.eq_dec x (region_end p n)) as [Hx|Hx]; [auto|].
    right. intros [?|[_ (k & w & Hk & Hw)]]; [contradiction|]. apply H. exists k. split; [exact Hk|].
    exists w. exact Hw.
Qed.

Section HOST.
  Variable be : bool.
  Variable poke_ok : N -> bool.
  Variable run : mem -> mem * stop.
  Hypothesis Hrun : forall m1, words m1 -> words (fst (run m1)).

  Lemma scan_sequence m p i q insn bs : ok m -> p < MAXP ->
    read_insn be m p = Some i -> is_larx i = true ->
    scan be m MAX_LARX_STCX_GAP p i [] = Some (q, insn, bs) -> is_stcx insn = true ->
    exists n, (n < 32)%nat /\ sequence m p n /\ q = p + 4 * N.of_nat n /\
      (forall x, In x bs <-> In x [] \/ exists k w, (k < n)%nat /\
         m (p + 4 * N.of_nat k) = Some w /\ is_branch w = true /\
         x = branch_target w (p + 4 * N.of_nat k)).
  Proof using Type.
    clear. intros Hm Hp Hr Hl Hs Hst.
    destruct (read_insn_val _ _ _ _ Hm Hr) as [Ei _].
    rewrite is_larx_iff in Hl by (eapply Hm; eauto).
    assert (Hns : is_stcx i = false).
    { destruct (is_stcx i) eqn:E; [|reflexivity]. rewrite is_stcx_iff in E by (eapply Hm; eauto).
      elim (larx_not_stcx _ Hl E). }
    destruct (scan_sound be m Hm MAX_LARX_STCX_GAP p i [] q insn bs) as (n & Hn & Hq & Hmq & Hk & Hb);
      auto; [unfold MAXP, w64, MAX_LARX_STCX_GAP in *; lia|].
    exists n. split; [exact Hn|]. split; [|auto]. subst q. unfold sequence. repeat split.
    - intros k Hkn. destruct (Nat.eq_dec k n) as [->|Hne]; [congruence|].
      destruct (Hk k) as (w & Ew & _); [lia|congruence].
    - replace w with i by congruence. apply Hl.
    - replace w with i by congruence. apply Hl.
    - intros k w Hkn Ew X. destruct (Hk k Hkn) as (w' & Ew' & Es).
      assert (w' = w) by congruence; subst w'.
      rewrite <- is_stcx_iff in X by (eapply Hm; eauto). congruence.
    - replace w with insn by congruence. apply is_stcx_iff in Hst; [apply Hst|eapply Hm; eauto].
    - replace w with insn by congruence. apply is_stcx_iff in Hst; [apply Hst|eapply Hm; eauto].
    - replace w with insn by congruence. apply is_stcx_iff in Hst; [apply Hst|eapply Hm; eauto].
  Qed.

  Lemma step_left fn m p : words m -> p mod 4 = 0 -> p < MAXP ->
    left_with run m p (step_over_atomic be poke_ok run fn m p).
  Proof.
    intros Hm Hp4 Hp. unfold step_over_atomic.
    destruct (read_insn be m p) as [i|] eqn:Er; [|reflexivity].
    destruct (is_larx i) eqn:El; [|reflexivity]. cbn [negb].
    destruct (scan be m MAX_LARX_STCX_GAP p i []) as [[[q insn] bs]|] eqn:Es; [|reflexivity].
    destruct (is_stcx insn) eqn:Est; [|reflexivity]. cbn [negb].
    destruct (scan_sequence m p i q insn bs Hm Hp Er El Es Est) as (n & Hn & Hseq & -> & Hb).
    assert (Estop : add64 (p + 4 * N.of_nat n) 4 = p + 4 * N.of_nat (S n)).
    { unfold add64. rewrite N.mod_small; [lia|]. unfold MAXP, w64 in *. lia. }
    rewrite Estop. cbv zeta.
    assert (Hk := exit_kept m p n _ bs Hm Hp4 ltac:(unfold MAXP, w64 in *; lia) eq_refl Hb).
    set (l := prune p (p + 4 * N.of_nat (S n)) (bs ++ [p + 4 * N.of_nat (S n)])) in *.
    assert (Hd : NoDup (kept l)) by apply prune_nodup.
    destruct (insert_breakpoints be poke_ok m l) as [m1 saved|m1] eqn:Ei.
    2:{ exists n. split; [exact Hn|]. split; [exact Hseq|].
        intro a. rewrite <- Hk. now apply (insert_exit be poke_ok l). }
    destruct (insert_ok be poke_ok l m m1 saved Hm Hd Ei) as (Hm1 & Hbp & Hf & Hsv).
    assert (Hw : with_breakpoints m (exit_point m p n) m1).
    { intro a. destruct (Hbp a) as [P1 P2]. rewrite Hk in P1, P2. auto. }
    assert (Hlt : forall a v, In (a, v) saved -> a <> MINUS1 -> v < W32).
    { intros a v Ha Hne. destruct (Hsv a v Ha Hne) as [E _]. eapply Hm; eauto. }
    assert (Hm2 := Hrun m1 Hm1).
    destruct (run m1) as [m2 st] eqn:Erun. cbn [fst] in Hm2.
    assert (Hd' : NoDup (kept (map fst saved))) by (rewrite Hf; exact Hd).
    destruct (remove_breakpoints be poke_ok m2 saved) as [m'|m'] eqn:Erm.
    - assert (Hres : restored m (exit_point m p n) m2 m').
      { intro a. destruct (remove_ok be poke_ok saved m2 m' Hm2 Hd' Hlt Erm a) as [R1 R2].
        rewrite Hf, Hk in R2. split; [|exact R2].
        intros [Hx Hbpa]. apply Hk in Hx. apply in_kept in Hx. destruct Hx as [Hx Hne].
        rewrite <- Hf in Hx. apply in_map_iff in Hx. destruct Hx as ((b & v) & Eb & Hin).
        cbn in Eb. subst b. rewrite (R1 v Hin Hne Hbpa). symmetry. now apply (Hsv a v). }
      assert (Hfin : exists n m1, (n < 32)%nat /\ sequence m p n /\
        with_breakpoints m (exit_point m p n) m1 /\
        restored m (exit_point m p n) (fst (run m1)) m').
      { exists n, m1. rewrite Erun. auto. }
      destruct st as [pc|]; [|exact Hfin].
      destruct (pc =? MINUS1); [exact Hfin|]. destruct fn; exact Hfin.
    - exists n, m1. split; [exact Hn|]. split; [exact Hseq|]. split; [exact Hw|].
      rewrite Erun. cbn [fst]. intro a.
      destruct (remove_exit be poke_ok saved m2 m' Hm2 Hlt Erm a) as [?|(v & Hin & Hne & Ev)]; [auto|].
      right. destruct (Hsv a v Hin Hne) as [E _]. split; [|congruence].
      apply Hk. rewrite in_kept. split; [|exact Hne]. rewrite <- Hf. apply in_map_iff.
      exists (a, v). auto.
  Qed.

  (** When it goes through *)
  Lemma step_succeeds fn m p n pc :
    words m -> p mod 4 = 0 -> p < MAXP ->
    sequence m p n -> (n < 32)%nat -> (count_bform m p n <= 7)%nat ->
    (forall k, (k <= n)%nat -> fetchable m (p + 4 * N.of_nat k)) ->
    (forall x, exit_point m p n x -> fetchable m x /\ poke_ok x = true) ->
    (forall m1, with_breakpoints m (exit_point m p n) m1 ->
       snd (run m1) = Illegal pc /\
       forall x, exit_point m p n x ->
         fst (run m1) x = Some BREAKPOINT_INSN /\ fst (run m1) (x + 4) <> None) ->
    pc <> MINUS1 ->
    exists m', step_over_atomic be poke_ok run fn m p
      = if fn then Stepped m' pc (calls p pc) (pdiff (p + 4 * N.of_nat (length (calls p pc))) pc)
        else Stepped m' pc [] (pdiff p pc).
  Proof.
    intros Hm Hp4 Hp (Hmap & Hlarx & Hns & Hst) Hn Hc Hf Hx Hr Hpc.
    assert (R0 : readable m p).
    { specialize (Hf 0%nat ltac:(lia)). now replace (p + 4 * N.of_nat 0) with p in Hf by lia. }
    unfold step_over_atomic. rewrite (read_readable be m p Hm R0).
    destruct R0 as (i & i1 & Ei & Ei1 & Nx). rewrite Ei.
    assert (El : is_larx i = true) by (apply is_larx_iff; [eapply Hm; eauto|auto]).
    rewrite El. cbn [negb].
    destruct (scan_complete be m Hm n MAX_LARX_STCX_GAP p i []) as (q & insn & bs & Es & Est);
      auto; [unfold MAXP, w64, MAX_LARX_STCX_GAP in *; lia|].
    rewrite Es, Est. cbn [negb].
    assert (Er : read_insn be m p = Some i).
    { rewrite (read_readable be m p Hm); [exact Ei|]. exists i, i1. auto. }
    destruct (scan_sequence m p i q insn bs Hm Hp Er El Es Est) as (n' & Hn' & Hseq' & -> & Hb).
    assert (n' = n).
    { destruct Hseq' as (Hmap' & _ & Hns' & Hst').
      destruct (Nat.lt_trichotomy n' n) as [L|[L|L]]; [exfalso|exact L|exfalso].
      - destruct (m (p + 4 * N.of_nat n')) as [w|] eqn:E; [|apply (Hmap n'); [lia|exact E]].
        apply (Hns n' w L E). now apply Hst'.
      - destruct (m (p + 4 * N.of_nat n)) as [w|] eqn:E; [|apply (Hmap' n); [lia|exact E]].
        apply (Hns' n w L E). now apply Hst. }
    subst n'.
    assert (Estop : add64 (p + 4 * N.of_nat n) 4 = p + 4 * N.of_nat (S n)).
    { unfold add64. rewrite N.mod_small; [lia|]. unfold MAXP, w64 in *. lia. }
    rewrite Estop. cbv zeta.
    assert (Hk := exit_kept m p n _ bs Hm Hp4 ltac:(unfold MAXP, w64 in *; lia) eq_refl Hb).
    set (l := prune p (p + 4 * N.of_nat (S n)) (bs ++ [p + 4 * N.of_nat (S n)])) in *.
    assert (Hd : NoDup (kept l)) by apply prune_nodup.
    destruct (insert_complete be poke_ok l m Hm) as (m1 & saved & Eins).
    { intros a Ha. apply Hk in Ha. now apply Hx. }
    rewrite Eins.
    destruct (insert_ok be poke_ok l m m1 saved Hm Hd Eins) as (Hm1 & Hbp & Hfs & Hsv).
    assert (Hw : with_breakpoints m (exit_point m p n) m1).
    { intro a. destruct (Hbp a) as [P1 P2]. rewrite Hk in P1, P2. auto. }
    destruct (Hr m1 Hw) as [Hsnd Hfst]. assert (Hm2 := Hrun m1 Hm1).
    destruct (run m1) as [m2 st]. cbn [fst snd] in *. subst st.
    destruct (remove_complete be poke_ok saved m2 Hm2) as [m' Erm].
    - rewrite Hfs. exact Hd.
    - intros a v Ha Hne. destruct (Hsv a v Ha Hne) as [E Pk].
      destruct (Hfst a) as [F1 F2].
      { apply Hk. rewrite in_kept. split; [|exact Hne]. rewrite <- Hfs. apply in_map_iff. exists (a, v). auto. }
      repeat split; auto. eapply Hm; eauto.
    - rewrite Erm. replace (pc =? MINUS1) with false by lia. exists m'. destruct fn; reflexivity.
  Qed.
End HOST.

(** A program that keeps off the breakpoints and leaves its code alone is
    unchanged. *)
Lemma restored_same m at_ m1 m' :
  with_breakpoints m at_ m1 -> (forall a, at_ a \/ ~ at_ a) -> restored m at_ m1 m' ->
  forall a, m' a = m a.
Proof.
  intros Hw Hdec Hr a. destruct (Hw a) as [W1 W2], (Hr a) as [R1 R2].
  destruct (Hdec a) as [H|H]; [auto|]. rewrite R2 by tauto. auto.
Qed.

(** Paths *)
Lemma at_word_inside p n a : at_word p n a -> inside p n a.
Proof. intros (k & Hk & ->). unfold inside, region_end. lia. Qed.
Lemma inside_at_word p n a : p mod 4 = 0 -> a mod 4 = 0 -> inside p n a -> at_word p n a.
Proof.
  unfold inside, region_end. intros Hp Ha H. exists (N.to_nat ((a - p) / 4)). lia.
Qed.

Lemma exits_covered m p n l b : p mod 4 = 0 -> p < MAXP -> (n < 32)%nat -> sequence m p n ->
  (forall k w, (k <= n)%nat -> m (p + 4 * N.of_nat k) = Some w -> ~ transfers w) ->
  run_to m p n l b -> at_word p n b \/ exit_point m p n b.
Proof.
  intros Hp4 Hp Hn Hseq Ht H. induction H as [|l a b Hrun IH Ha (w & Ew & Hnext)].
  - left. exists 0%nat. split; lia.
  - destruct Ha as (k & Hk & ->).
    destruct Hnext as [->|[[Hbf ->]|Htr]].
    + assert (E : word64 (Z.of_N (p + 4 * N.of_nat k) + 4) = p + 4 * N.of_nat (S k)).
      { replace (Z.of_N (p + 4 * N.of_nat k) + 4)%Z with (Z.of_N (p + 4 * N.of_nat (S k))) by lia.
        rewrite word64_of_N. apply N.mod_small. unfold MAXP, w64 in *. lia. }
      rewrite E. destruct (Nat.eq_dec k n) as [->|Hne].
      * right. left. reflexivity.
      * left. exists (S k). split; [lia|reflexivity].
    + assert (Hal : target w (p + 4 * N.of_nat k) mod 4 = 0) by (apply target_aligned, mod4_add, Hp4).
      set (t := target w (p + 4 * N.of_nat k)) in *.
      destruct ((p <=? t) && (t <? region_end p n)) eqn:E.
      * left. apply inside_at_word; auto. unfold inside. lia.
      * right. right. split; [unfold inside; lia|].
        destruct (Nat.eq_dec k n) as [->|Hne].
        -- destruct Hseq as (_ & _ & _ & Hst). elim (stcx_not_bform w (Hst w Ew) Hbf).
        -- exists k, w. repeat split; auto. lia.
    + elim (Ht k w Hk Ew Htr).
Qed.

Lemma exit_outside m p n x : exit_point m p n x -> ~ inside p n x.
Proof. intros [->|[H _]]; [unfold inside; lia|exact H]. Qed.

(** Callbacks *)
Lemma calls_spec start pc a : start mod 4 = 0 -> pc mod 4 = 0 ->
  In a (calls start pc) <-> start <= a <= pc /\ a mod 4 = 0.
Proof.
  intros Hs Hp. unfold calls. destruct (start <=? pc) eqn:E.
  - rewrite in_map_iff. split.
    + intros (k & <- & Hk). apply in_seq in Hk. lia.
    + intros [Ha H4]. exists (N.to_nat ((a - start) / 4)). split; [lia|]. apply in_seq. lia.
  - cbn [In]. lia.
Qed.

Lemma calls_length start pc : start <= pc ->
  length (calls start pc) = S (N.to_nat ((pc - start) / 4)).
Proof.
  intro H. unfold calls. replace (start <=? pc) with true by lia. now rewrite map_length, seq_length.
Qed.
Lemma calls_pdiff start pc : start <= pc -> start mod 4 = 0 -> pc mod 4 = 0 ->
  pdiff (start + 4 * N.of_nat (length (calls start pc))) pc = 1.
Proof.
  intros H Hs Hp. rewrite calls_length by assumption. unfold pdiff.
  replace ((Z.of_N (start + 4 * N.of_nat (S (N.to_nat ((pc - start) / 4)))) - Z.of_N pc) / 4)%Z with 1%Z by lia.
  reflexivity.
Qed.

Definition straight (p : N) (n : nat) : list N := map (fun k => p + 4 * N.of_nat k) (seq 0 (S n)).
Lemma calls_straight p n : calls p (region_end p n) = straight p n ++ [region_end p n].
Proof.
  unfold calls, straight, region_end. replace (_ <=? _) with true by lia.
  replace (N.to_nat ((p + 4 * N.of_nat (S n) - p) / 4)) with (S n).
  2:{ replace (p + 4 * N.of_nat (S n) - p) with (N.of_nat (S n) * 4) by lia. rewrite N.div_mul by lia. lia. }
  rewrite (seq_S (S n)), map_app. reflexivity.
Qed.

Lemma step_unchanged be poke_ok run fn m p : words m -> p mod 4 = 0 -> p < MAXP ->
  (forall m1 a, fst (run m1) a = m1 a) ->
  match step_over_atomic be poke_ok run fn m p with
  | NotLarx m' | ExitEarly m' | ExitAfter m' | Stepped m' _ _ _ => forall a, m' a = m a
  | ExitInserting _ | ExitRemoving _ => True
  end.
Proof.
  intros Hm Hp4 Hp Hr.
  assert (Hw : forall m1, words m1 -> words (fst (run m1))).
  { intros m1 H1 a w. rewrite Hr. apply H1. }
  assert (H := step_left be poke_ok run Hw fn m p Hm Hp4 Hp).
  destruct (step_over_atomic be poke_ok run fn m p); cbn [left_with] in H; try (subst; reflexivity); try exact I.
  - destruct H as (n & m1 & _ & _ & Hb & Hres).
    apply (restored_same m (exit_point m p n) m1 _ Hb (exit_dec m p n)).
    intro a. specialize (Hres a). rewrite Hr in Hres. exact Hres.
  - destruct H as (n & m1 & _ & _ & Hb & Hres).
    apply (restored_same m (exit_point m p n) m1 _ Hb (exit_dec m p n)).
    intro a. specialize (Hres a). rewrite Hr in Hres. exact Hres.
Qed.

Lemma stops m p n m1 l b : p mod 4 = 0 -> p < MAXP -> (n < 32)%nat -> sequence m p n ->
  (forall k w, (k <= n)%nat -> m (p + 4 * N.of_nat k) = Some w -> ~ transfers w) ->
  with_breakpoints m (exit_point m p n) m1 -> run_to m p n l b ->
  (at_word p n b /\ m1 b = m b) \/ (~ at_word p n b /\ m1 b = Some BREAKPOINT_INSN).
Proof.
  intros Hp4 Hp Hn Hs Ht Hw Hr. destruct (Hw b) as [W1 W2].
  assert (Hx : exit_point m p n b -> ~ at_word p n b).
  { intros H1 H2. exact (exit_outside _ _ _ _ H1 (at_word_inside _ _ _ H2)). }
  destruct (exits_covered m p n l b Hp4 Hp Hn Hs Ht Hr) as [H|H]; [left|right]; auto.
  split; [exact H|]. apply W2. intro X. exact (Hx X H).
Qed.
