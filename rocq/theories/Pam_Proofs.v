(** Clustering: proofs. *)
Require Import NArith ZArith List Bool Lia.
Require Import ZifyBool ZifyN ZifyNat.
Require Import Verif.Word Verif.Matrix_Model Verif.Matrix_Spec Verif.Matrix_Proofs.
Require Import Verif.Pam_Model Verif.Pam_Spec.
Import ListNotations.
Local Open Scope N_scope.

(** ** The distance *)
Lemma sub64_Z : forall x y, Z.of_N (sub64 x y) = ((Z.of_N x - Z.of_N y) mod 18446744073709551616)%Z.
Proof.
  intros x y. unfold sub64. change w64 with 18446744073709551616.
  pose proof (N.mod_lt y 18446744073709551616 ltac:(discriminate)).
  rewrite N2Z.inj_mod. rewrite N2Z.inj_sub by lia. rewrite N2Z.inj_add, N2Z.inj_mod.
  change (Z.of_N 18446744073709551616) with 18446744073709551616%Z.
  rewrite Zminus_mod, Zplus_mod, Z_mod_same_full, Z.add_0_r, !Z.mod_mod by discriminate.
  now rewrite <- Zminus_mod.
Qed.
Lemma gap_self : forall x, gap x x = 0.
Proof.
  intro x. unfold gap. replace (sub64 x x) with 0; [reflexivity|].
  apply N2Z.inj. rewrite sub64_Z, Z.sub_diag. reflexivity.
Qed.
Lemma gap_sym : forall x y, sub64 x y <> 9223372036854775808 -> gap x y = gap y x.
Proof.
  intros x y H. unfold gap.
  pose proof (sub64_Z x y) as E1. pose proof (sub64_Z y x) as E2.
  replace (Z.of_N y - Z.of_N x)%Z with (- (Z.of_N x - Z.of_N y))%Z in E2 by lia.
  revert E1 E2. generalize (Z.of_N x - Z.of_N y)%Z. intros z E1 E2.
  assert (L1 : sub64 x y < 18446744073709551616) by (unfold sub64; apply N.mod_lt; discriminate).
  unfold s64. change w64 with 18446744073709551616.
  assert (L2 : sub64 y x < 18446744073709551616) by (unfold sub64; apply N.mod_lt; discriminate).
  rewrite !(N.mod_small (sub64 _ _)) by assumption.
  destruct (Z.eq_dec (z mod 18446744073709551616) 0) as [Z0|Z0].
  - rewrite Z.mod_opp_l_z in E2 by (auto; discriminate). rewrite Z0 in E1.
    replace (sub64 x y) with 0 by lia. replace (sub64 y x) with 0 by lia. reflexivity.
  - rewrite Z.mod_opp_l_nz in E2 by (auto; discriminate).
    destruct (N.ltb_spec (sub64 x y) 9223372036854775808), (N.ltb_spec (sub64 y x) 9223372036854775808); lia.
Qed.
Lemma sum_ext : forall n g h, (forall i, i < N.of_nat n -> g i = h i) -> sum_to n g = sum_to n h.
Proof.
  induction n as [|n IH]; intros g h H; [reflexivity|]. cbn [sum_to].
  rewrite (IH g h) by (intros; apply H; lia). rewrite H by lia. reflexivity.
Qed.
Lemma sum_zero : forall n g, (forall i, i < N.of_nat n -> g i = 0) -> sum_to n g = 0.
Proof.
  intros n g H. rewrite (sum_ext n g (fun _ => 0) H). clear. induction n; cbn [sum_to]; lia.
Qed.
Lemma D_self : forall f cols a, D f cols a a = 0.
Proof. intros. unfold D. rewrite sum_zero; [reflexivity|]. intros. apply gap_self. Qed.
Lemma D_sym : forall f rows cols a b, no_undef f rows cols -> a < rows -> b < rows ->
  D f cols a b = D f cols b a.
Proof.
  intros f rows cols a b H Ha Hb. unfold D. f_equal. apply sum_ext. intros c Hc.
  apply gap_sym, H; auto. lia.
Qed.

Section MODEL.
  Variable m : matrix.
  Variables rows cols : N.
  Variable f : N -> N -> N.
  Hypothesis Hm : holds m rows cols f.
  Hypothesis Hu : no_undef f rows cols.
  Notation d := (D f cols).

  Lemma dist_loop_ok : forall a b, a < rows -> b < rows -> forall n i x, i + N.of_nat n = cols ->
    x = sum_to (N.to_nat i) (fun c => gap (f a c) (f b c)) mod 2 ^ 64 ->
    dist_loop m n i a b x = POk (d a b).
  Proof.
    intros a b Ha Hb. induction n as [|n IH]; intros i x Hi Hx.
    - cbn [dist_loop]. rewrite Hx. unfold D. now replace i with cols by lia.
    - cbn [dist_loop]. unfold coord. rewrite !(get_ok m rows cols f) by (auto; lia). cbn [p_bind].
      unfold p_llabs. destruct (N.eqb_spec (sub64 (f a i) (f b i)) 9223372036854775808) as [E|_].
      { exfalso. apply (Hu a b i Ha Hb ltac:(lia) E). }
      cbn [p_bind]. apply IH; [lia|]. rewrite Hx.
      replace (N.to_nat (i + 1)) with (S (N.to_nat i)) by lia. cbn [sum_to]. rewrite N2Nat.id.
      unfold add64. change w64 with (2 ^ 64). rewrite N.add_mod_idemp_l by discriminate. reflexivity.
  Qed.
  Lemma dist_ok : forall a b, a < rows -> b < rows -> dist m a b = POk (d a b).
  Proof.
    intros a b Ha Hb. unfold dist. rewrite (proj1 (proj2 Hm)).
    apply dist_loop_ok; auto; lia.
  Qed.
  Lemma mrows : m_rows m = rows. Proof. exact (proj1 Hm). Qed.
End MODEL.

(** ** The algorithm, for any distance *)
Section ALG.
  Variable m : matrix.
  Variable rows : N.
  Variable d : N -> N -> N.
  Hypothesis Hrows : m_rows m = rows.
  Hypothesis Hdist : forall a b, a < rows -> b < rows -> dist m a b = POk (d a b).
  Hypothesis Hsym : forall a b, a < rows -> b < rows -> d a b = d b a.
  Hypothesis Hself : forall a, d a a = 0.
  Notation total := (total d rows).
  Notation distinct := (distinct d rows).
  Notation inr l := (Forall (fun a => a < rows) l).

  Lemma dmin_le : forall meds p a, In a meds -> dmin d meds p <= d p a.
  Proof.
    unfold dmin. induction meds as [|b meds IH]; intros p a H; [destruct H|].
    cbn [map fold_right]. destruct H as [-> |H]; [lia|]. specialize (IH p a H). lia.
  Qed.
  Lemma dmin_max : forall meds p, dmin d meds p <= UMAX.
  Proof. unfold dmin. induction meds as [|b meds IH]; intro p; cbn [map fold_right]; [lia|]. specialize (IH p). lia. Qed.

  Lemma find_loop_ok : forall meds p, inr meds -> p < rows -> forall i ret cost,
    exists r, find_loop m meds i p ret cost = POk (r, fold_right N.min cost (map (d p) meds)) /\
      ((r = ret /\ fold_right N.min cost (map (d p) meds) = cost) \/
       exists j a, nth_error meds j = Some a /\ r = i + N.of_nat j /\
         d p a = fold_right N.min cost (map (d p) meds) /\ d p a < cost /\
         forall j' b, (j' < j)%nat -> nth_error meds j' = Some b -> d p a < d p b).
  Proof.
    induction meds as [|a meds IH]; intros p Hi Hp i ret cost.
    - exists ret. cbn. auto.
    - inversion Hi as [|a' meds' Ha Hi' E]. subst. cbn [find_loop]. rewrite (Hdist p a) by assumption.
      cbn [p_bind map fold_right].
      assert (Fm : forall l x y, fold_right N.min (N.min x y) l = N.min x (fold_right N.min y l)).
      { clear. induction l as [|z l IHl]; intros x y; cbn [fold_right]; [reflexivity|]. rewrite IHl. lia. }
      destruct (N.ltb_spec (d p a) cost) as [L|L].
      + destruct (IH p Hi' Hp (i + 1) i (d p a)) as (r & Er & Hr). rewrite Er.
        exists r. split.
        { f_equal. f_equal. rewrite <- Fm. f_equal. lia. }
        right. assert (Fe : fold_right N.min (d p a) (map (d p) meds) = N.min (d p a) (fold_right N.min cost (map (d p) meds))).
        { rewrite <- Fm. f_equal. lia. }
        rewrite <- Fe. destruct Hr as [(-> & Hr)|(j & b & J1 & J2 & J3 & J4 & J5)].
        * exists O, a. cbn [nth_error]. repeat split; try lia.
        * exists (S j), b. cbn [nth_error]. repeat split; try lia; auto.
          intros j' c Hj'. destruct j' as [|j']; cbn [nth_error].
          -- intro E. injection E as <-. exact J4.
          -- apply J5. lia.
      + destruct (IH p Hi' Hp (i + 1) ret cost) as (r & Er & Hr). rewrite Er.
        assert (Fc : fold_right N.min cost (map (d p) meds) <= cost).
        { clear. induction (map (d p) meds) as [|z l IHl]; cbn [fold_right]; lia. }
        exists r. split.
        { f_equal. f_equal. lia. }
        replace (N.min (d p a) (fold_right N.min cost (map (d p) meds))) with (fold_right N.min cost (map (d p) meds)) by lia.
        destruct Hr as [Hr|(j & b & J1 & J2 & J3 & J4 & J5)]; [left; exact Hr|right].
        exists (S j), b. cbn [nth_error]. repeat split; try lia; auto.
        intros j' c Hj'. destruct j' as [|j']; cbn [nth_error].
        -- intro E. injection E as <-. lia.
        -- apply J5. lia.
  Qed.
  Lemma find_medoid_ok : forall meds p, inr meds -> p < rows ->
    exists r, find_medoid m meds p = POk (r, dmin d meds p) /\
      (dmin d meds p = UMAX \/
       exists j a, nth_error meds j = Some a /\ r = N.of_nat j /\ d p a = dmin d meds p /\
         forall j' b, (j' < j)%nat -> nth_error meds j' = Some b -> d p a < d p b).
  Proof.
    intros meds p Hi Hp. destruct (find_loop_ok meds p Hi Hp 0 UMAX UMAX) as (r & Er & Hr).
    exists r. split; [exact Er|]. destruct Hr as [(_ & Hr)|(j & a & J1 & J2 & J3 & J4 & J5)]; [left; exact Hr|].
    right. exists j, a. repeat split; auto.
  Qed.

  Lemma cost_loop_ok : forall meds, inr meds -> forall n p sum, p + N.of_nat n = rows ->
    sum = sum_to (N.to_nat p) (dmin d meds) mod 2 ^ 64 ->
    cost_loop m n p meds sum = POk (total meds).
  Proof.
    intros meds Hi. induction n as [|n IH]; intros p sum Hp Hs; cbn [cost_loop].
    - rewrite Hs. unfold Pam_Spec.total. now replace p with rows by lia.
    - destruct (find_medoid_ok meds p Hi ltac:(lia)) as (r & Er & _). rewrite Er. cbn [p_bind snd].
      apply IH; [lia|]. rewrite Hs.
      replace (N.to_nat (p + 1)) with (S (N.to_nat p)) by lia. cbn [sum_to]. rewrite N2Nat.id.
      unfold add64. change w64 with (2 ^ 64). rewrite N.add_mod_idemp_l by discriminate. reflexivity.
  Qed.
  Lemma total_cost_ok : forall meds, inr meds -> total_cost m meds = POk (total meds).
  Proof.
    intros meds Hi. unfold total_cost. rewrite Hrows. apply cost_loop_ok; auto; lia.
  Qed.
  Lemma is_medoid_ok : forall meds p, inr meds -> p < rows ->
    exists b, is_medoid m meds p = POk b /\
      (b = false -> Forall (fun a => d p a <> 0) meds) /\ (b = true -> exists a, In a meds /\ d p a = 0).
  Proof.
    induction meds as [|a meds IH]; intros p Hi Hp.
    - exists false. cbn. repeat split; auto. discriminate.
    - inversion Hi as [|a' meds' Ha Hi' E]. subst. cbn [is_medoid]. rewrite (Hdist p a) by assumption.
      cbn [p_bind]. destruct (N.eqb_spec (d p a) 0) as [Z|Z].
      + exists true. repeat split; [discriminate|]. intros _. exists a. split; [now left|exact Z].
      + destruct (IH p Hi' Hp) as (b & Eb & B1 & B2). exists b. split; [exact Eb|]. split.
        * intro H. constructor; auto.
        * intro H. destruct (B2 H) as (c & Hc & Hd). exists c. split; [now right|exact Hd].
  Qed.

  Lemma replace_in : forall l j v a, In a (m_replace j l v) -> a = v \/ In a l.
  Proof.
    induction l as [|x l IH]; intros [|j] v a H; cbn in H |- *; auto.
    - destruct H as [<- |H]; auto.
    - destruct H as [<- |H]; auto. destruct (IH _ _ _ H); auto.
  Qed.
  Lemma replace_inr : forall l j v, inr l -> v < rows -> inr (m_replace j l v).
  Proof.
    intros l j v Hl Hv. rewrite Forall_forall in *. intros a Ha.
    destruct (replace_in l j v a Ha) as [-> |H]; auto.
  Qed.
  Lemma replace_distinct : forall l j p, distinct l -> p < rows -> Forall (fun a => d p a <> 0) l ->
    (j < length l)%nat -> distinct (m_replace j l p).
  Proof.
    intros l j p [H1 H2] Hp Hf Hj. split; [now apply replace_inr|].
    intros x y a b. rewrite !replace_nth_error by exact Hj.
    rewrite Forall_forall in Hf, H1.
    destruct (Nat.eqb_spec x j), (Nat.eqb_spec y j); intros Ea Eb Hn.
    - lia.
    - injection Ea as <-. apply Hf. eapply nth_error_In; eauto.
    - injection Eb as <-. pose proof (nth_error_In _ _ Ea) as Ia. rewrite Hsym; auto.
    - eapply H2; eauto.
  Qed.

  Definition good (s : pam) : Prop := distinct (p_medoids s) /\ p_cost s = total (p_medoids s).

  Lemma swap_loop_ok : forall md n p s progress, good s -> (md < length (p_medoids s))%nat ->
    p + N.of_nat n = rows ->
    exists s' pr ret, swap_loop m n p md s progress = POk (s', pr, ret) /\ good s' /\
      length (p_medoids s') = length (p_medoids s) /\ p_cost s' <= p_cost s /\
      (ret = true -> p_cost s' = 0 /\ pr = false) /\
      (ret = false -> (pr = true /\ (progress = true \/ p_cost s' < p_cost s)) \/
         (pr = false /\ progress = false /\ s' = s /\
          forall q, p <= q -> q < rows -> Forall (fun a => d q a <> 0) (p_medoids s) ->
            p_cost s <= total (m_replace md (p_medoids s) q))).
  Proof.
    intro md. induction n as [|n IH]; intros p s progress G Hmd Hp; cbn [swap_loop].
    - exists s, progress, false. repeat split; auto; try (apply G); try lia; try discriminate.
      intros _. destruct progress; [left|right]; repeat split; auto. intros. lia.
    - destruct G as [G1 G2].
      destruct (is_medoid_ok (p_medoids s) p (proj1 G1) ltac:(lia)) as (b & Eb & B1 & B2).
      rewrite Eb. cbn [p_bind]. destruct b.
      + destruct (IH (p + 1) s progress) as (s' & pr & ret & E & Q1 & Q2 & Q3 & Q4 & Q5);
          [split; assumption|exact Hmd|lia|].
        rewrite E. exists s', pr, ret. repeat split; auto; try (apply Q1); try (now apply Q4).
        intro Hr. destruct (Q5 Hr) as [H|(H1 & H2 & H3 & H4)]; [left; exact H|right].
        repeat split; auto. intros q Hq1 Hq2 Hf. destruct (N.eq_dec q p) as [-> |]; [|apply H4; auto; lia].
        exfalso. destruct (B2 eq_refl) as (a & Ia & Za). rewrite Forall_forall in Hf. now apply (Hf a Ia).
      + specialize (B1 eq_refl). cbv zeta.
        set (sw := m_replace md (p_medoids s) p).
        assert (Hsw : distinct sw) by (apply replace_distinct; auto; lia).
        rewrite (total_cost_ok sw) by (apply Hsw). cbn [p_bind].
        destruct (N.ltb_spec (total sw) (p_cost s)) as [L|L].
        * cbn [p_cost]. destruct (N.eqb_spec (total sw) 0) as [Z|Z].
          -- exists (mk_pam sw (total sw)), false, true. cbn [p_cost p_medoids].
             repeat split; auto; try (apply Hsw); try lia; try discriminate.
             unfold sw. apply replace_len.
          -- destruct (IH (p + 1) (mk_pam sw (total sw)) true) as (s' & pr & ret & E & Q1 & Q2 & Q3 & Q4 & Q5).
             { split; [exact Hsw|reflexivity]. }
             { cbn [p_medoids]. unfold sw. now rewrite replace_len. }
             { lia. }
             cbn [p_cost p_medoids] in *. rewrite E. exists s', pr, ret.
             repeat split; auto; try (apply Q1); try (now apply Q4); try lia.
             { rewrite Q2. unfold sw. apply replace_len. }
        * destruct (N.eqb_spec (p_cost s) 0) as [Z|Z].
          -- exists s, false, true. repeat split; auto; try (apply G1); try lia; try discriminate.
          -- destruct (IH (p + 1) s progress) as (s' & pr & ret & E & Q1 & Q2 & Q3 & Q4 & Q5);
               [split; assumption|exact Hmd|lia|].
             rewrite E. exists s', pr, ret. repeat split; auto; try (apply Q1); try (now apply Q4).
             intro Hr. destruct (Q5 Hr) as [H|(H1 & H2 & H3 & H4)]; [left; exact H|right].
             repeat split; auto. intros q Hq1 Hq2 Hf. destruct (N.eq_dec q p) as [-> |]; [exact L|apply H4; auto; lia].
  Qed.

  Lemma medoid_loop_ok : forall n md s progress, good s -> (md + n = length (p_medoids s))%nat ->
    exists s' pr, medoid_loop m n md s progress = POk (s', pr) /\ good s' /\
      length (p_medoids s') = length (p_medoids s) /\ p_cost s' <= p_cost s /\
      (pr = true -> progress = true \/ p_cost s' < p_cost s) /\
      (pr = false -> p_cost s' = 0 \/
         (progress = false /\ s' = s /\
          forall j q, (md <= j < length (p_medoids s))%nat -> q < rows ->
            Forall (fun a => d q a <> 0) (p_medoids s) -> p_cost s <= total (m_replace j (p_medoids s) q))).
  Proof.
    induction n as [|n IH]; intros md s progress G Hn; cbn [medoid_loop].
    - exists s, progress. repeat split; auto; try (apply G); try lia.
      intros ->. right. repeat split; auto. intros. lia.
    - rewrite Hrows.
      destruct (swap_loop_ok md (N.to_nat rows) 0 s progress G ltac:(lia) ltac:(lia))
        as (s1 & pr1 & ret & E & Q1 & Q2 & Q3 & Q4 & Q5).
      rewrite E. cbn [p_bind]. destruct ret.
      + destruct (Q4 eq_refl) as [Z ->]. exists s1, false. repeat split; auto; try (apply Q1). discriminate.
      + specialize (Q5 eq_refl).
        destruct (IH (S md) s1 pr1 Q1 ltac:(lia)) as (s2 & pr2 & E2 & R1 & R2 & R3 & R4 & R5).
        rewrite E2. exists s2, pr2. repeat split; auto; try (apply R1); try lia.
        * intro H. destruct (R5 H) as [H1|(H1 & H2 & H3)]; [left; exact H1|].
          destruct Q5 as [(H4 & _)|(H4 & H5 & H6 & H7)]; [congruence|]. subst s1.
          right. repeat split; auto. intros j q Hj Hq Hf.
          destruct (Nat.eq_dec j md) as [-> |]; [apply H7; auto; lia|apply H3; auto; lia].
  Qed.
  Lemma iteration_ok : forall s, good s ->
    exists s' pr, pam_iteration m s = POk (s', pr) /\ good s' /\
      length (p_medoids s') = length (p_medoids s) /\ p_cost s' <= p_cost s /\
      (pr = true -> p_cost s' < p_cost s) /\
      (pr = false -> p_cost s' = 0 \/ (s' = s /\ local_optimum d rows (p_medoids s) (p_cost s))).
  Proof.
    intros s G. unfold pam_iteration.
    destruct (medoid_loop_ok (length (p_medoids s)) 0 s false G ltac:(lia)) as (s' & pr & E & R1 & R2 & R3 & R4 & R5).
    exists s', pr. repeat split; auto; try (apply R1).
    - intro H. destruct (R4 H) as [H1|H1]; [discriminate H1|exact H1].
    - intro H. destruct (R5 H) as [H1|(_ & H2 & H3)]; [left; exact H1|right]. split; [exact H2|].
      intros j p Hj Hp Hf. apply H3; auto. lia.
  Qed.
  Lemma loop_ok : forall s, good s ->
    exists s' n, (forall fuel, (n <= fuel)%nat -> pam_loop m fuel s = POk s') /\ good s' /\
      length (p_medoids s') = length (p_medoids s) /\ p_cost s' <= p_cost s /\
      (p_cost s' = 0 \/ local_optimum d rows (p_medoids s') (p_cost s')).
  Proof.
    intro s. remember (p_cost s) as c eqn:Ec. revert s Ec.
    induction c as [c IH] using (well_founded_induction N.lt_wf_0). intros s Ec G.
    destruct (iteration_ok s G) as (s1 & pr & E & R1 & R2 & R3 & R4 & R5).
    destruct pr.
    - destruct (IH (p_cost s1) ltac:(specialize (R4 eq_refl); lia) s1 eq_refl R1)
        as (s2 & n & L & S1 & S2 & S3 & S4).
      exists s2, (S n). split; [|split; [exact S1|split; [congruence|split; [lia|exact S4]]]].
      intros fuel Hf. destruct fuel as [|fuel]; [lia|]. cbn [pam_loop]. rewrite E. cbn [p_bind fst snd].
      apply L. lia.
    - exists s1, 1%nat. split.
      + intros fuel Hf. destruct fuel as [|fuel]; [lia|]. cbn [pam_loop]. rewrite E. reflexivity.
      + split; [exact R1|]. split; [exact R2|]. split; [lia|].
        destruct (R5 eq_refl) as [H|(-> & H)]; [left; exact H|right; exact H].
  Qed.

  (** *** The first medoids *)
  (** The medoids chosen from the points below [p] when [wanted] are taken at most *)
  Definition covers (meds : list N) (p : N) : Prop := forall q, q < p -> exists a, In a meds /\ d q a = 0.

  Lemma distinct_snoc : forall meds p, distinct meds -> p < rows -> Forall (fun a => d p a <> 0) meds ->
    distinct (meds ++ [p]).
  Proof.
    intros meds p [H1 H2] Hp Hf. split.
    - apply Forall_app. split; [exact H1|]. now constructor.
    - rewrite Forall_forall in Hf, H1.
      assert (X : forall i a, nth_error (meds ++ [p]) i = Some a ->
        (nth_error meds i = Some a /\ (i < length meds)%nat) \/ (i = length meds /\ a = p)).
      { intros i a E. destruct (Nat.lt_ge_cases i (length meds)) as [L|L].
        - rewrite nth_error_app1 in E by exact L. left. auto.
        - rewrite nth_error_app2 in E by exact L. right.
          destruct (i - length meds)%nat as [|k] eqn:Ek; cbn in E; [|destruct k; discriminate E].
          injection E as <-. split; [lia|reflexivity]. }
      intros i j a b Ei Ej Hn. destruct (X i a Ei) as [[A1 A2]|[A1 ->]], (X j b Ej) as [[B1 B2]|[B1 ->]].
      + eapply H2; eauto.
      + pose proof (nth_error_In _ _ A1) as Ia. rewrite Hsym; auto.
      + apply Hf. eapply nth_error_In; eauto.
      + lia.
  Qed.

  Lemma init_loop_ok : forall wanted n p meds, distinct meds -> covers meds p ->
    p + N.of_nat n = rows -> N.of_nat (length meds) < wanted ->
    exists meds', init_loop m n p meds wanted = POk meds' /\ distinct meds' /\
      (N.of_nat (length meds') = wanted \/
       (N.of_nat (length meds') < wanted /\ covers meds' rows)).
  Proof.
    intro wanted. induction n as [|n IH]; intros p meds Hd Hc Hp Hl; cbn [init_loop].
    - exists meds. split; [reflexivity|]. split; [exact Hd|]. right. split; [exact Hl|].
      now replace rows with p by lia.
    - destruct (is_medoid_ok meds p (proj1 Hd) ltac:(lia)) as (b & Eb & B1 & B2).
      rewrite Eb. cbn [p_bind]. destruct b.
      + apply IH; auto; [|lia]. intros q Hq. destruct (N.eq_dec q p) as [-> |]; [auto|apply Hc; lia].
      + cbv zeta. specialize (B1 eq_refl).
        assert (Hd' : distinct (meds ++ [p])) by (apply distinct_snoc; auto; lia).
        rewrite app_length. cbn [length].
        destruct (N.eqb_spec (N.of_nat (length meds + 1)) wanted) as [E|E].
        * exists (meds ++ [p]). split; [reflexivity|]. split; [exact Hd'|]. left. now rewrite app_length.
        * apply IH; auto; try lia.
          -- intros q Hq. destruct (N.eq_dec q p) as [-> |].
             ++ exists p. split; [apply in_or_app; right; now left|apply Hself].
             ++ destruct (Hc q ltac:(lia)) as (a & Ia & Za). exists a. split; [|exact Za].
                apply in_or_app. now left.
          -- rewrite app_length. cbn [length]. lia.
  Qed.
  Lemma initialise_ok : forall wanted,
    (pam_initialise m wanted = POk None /\
       (wanted = 0 \/ exists meds, distinct meds /\ N.of_nat (length meds) < wanted /\ covers meds rows)) \/
    exists s, pam_initialise m wanted = POk (Some s) /\ good s /\ N.of_nat (length (p_medoids s)) = wanted.
  Proof.
    intro wanted. unfold pam_initialise. destruct (N.eqb_spec wanted 0) as [-> |H0]; [left; auto|].
    rewrite Hrows.
    destruct (init_loop_ok wanted (N.to_nat rows) 0 []) as (meds & E & Hd & Hl).
    { split; [constructor|]. intros i j a b H. destruct i; discriminate H. }
    { intros q Hq. lia. }
    { lia. }
    { cbn. lia. }
    rewrite E. cbn [p_bind]. destruct (N.ltb_spec (N.of_nat (length meds)) wanted) as [L|L].
    - left. split; [reflexivity|]. right. exists meds.
      destruct Hl as [Hl|[Hl Hc]]; [lia|auto].
    - right. rewrite total_cost_ok by (apply Hd). cbn [p_bind]. eexists. split; [reflexivity|].
      split; [split; [exact Hd|reflexivity]|]. cbn [p_medoids]. lia.
  Qed.

  (** *** The report *)
  Lemma md_replace_nth : forall l n v k, (n < length l)%nat ->
    nth_error (md_replace n l v) k = if Nat.eqb k n then Some v else nth_error l k.
  Proof.
    induction l as [|x l IH]; intros n v k H; [cbn in H; lia|].
    destruct n, k; cbn; auto. apply IH. cbn in H. lia.
  Qed.
  Lemma md_replace_len : forall l n v, length (md_replace n l v) = length l.
  Proof. induction l; intros [|n] v; cbn; auto. Qed.

  Definition upto (near : N -> nat) (p : N) (j : nat) : N :=
    sum_to (N.to_nat p) (fun q => if Nat.eqb (near q) j then 1 else 0).
  Lemma upto_S : forall near p j, upto near (p + 1) j = upto near p j + (if Nat.eqb (near p) j then 1 else 0).
  Proof.
    intros near p j. unfold upto. replace (N.to_nat (p + 1)) with (S (N.to_nat p)) by lia.
    cbn [sum_to]. now rewrite N2Nat.id.
  Qed.
  Lemma upto_le : forall near p j, upto near p j <= p.
  Proof.
    intros near p j. induction p as [|p IH] using N.peano_ind; [cbn; lia|].
    rewrite <- N.add_1_r, upto_S. destruct (Nat.eqb _ _); lia.
  Qed.

  Section REPORT.
    Variable meds : list N.
    Variable near : N -> nat.
    Hypothesis Hd : distinct meds.
    Hypothesis Hsmall : rows < 2 ^ 64.
    Hypothesis Hnear : assigns d rows meds near.
    Hypothesis Hfind : forall p, p < rows -> find_medoid m meds p = POk (N.of_nat (near p), dmin d meds p).

    Definition entry_ok (p : N) (j : nat) (t : medoid_data) : Prop :=
      md_count t = upto near p j /\
      (md_found t = false -> forall q, q < p -> near q = j -> dmin d meds q <> 0) /\
      (md_found t = true -> md_offset t < p /\ near (md_offset t) = j /\ dmin d meds (md_offset t) = 0 /\
         forall q, q < md_offset t -> near q = j -> dmin d meds q <> 0).

    Lemma near_lt : forall p, p < rows -> (near p < length meds)%nat.
    Proof.
      intros p Hp. destruct (Hnear p Hp) as (a & Ea & _). apply nth_error_Some. congruence.
    Qed.

    Lemma report_loop_ok : forall n p tmp, p + N.of_nat n = rows -> length tmp = length meds ->
      (forall j t, nth_error tmp j = Some t -> entry_ok p j t) ->
      exists tmp', report_loop m n p meds tmp = POk tmp' /\ length tmp' = length meds /\
        forall j t, nth_error tmp' j = Some t -> entry_ok rows j t.
    Proof.
      induction n as [|n IH]; intros p tmp Hp Hl Ht; cbn [report_loop].
      - exists tmp. split; [reflexivity|]. split; [exact Hl|]. now replace rows with p by lia.
      - assert (Pr : p < rows) by lia. rewrite (Hfind p Pr). cbn [p_bind fst snd].
        pose proof (near_lt p Pr) as Ln. unfold md_get. rewrite Nat2N.id.
        destruct (N.ltb_spec (N.of_nat (near p)) (N.of_nat (length tmp))) as [_|X]; [|lia].
        destruct (nth_error tmp (near p)) as [t|] eqn:Et; [|apply nth_error_None in Et; lia].
        pose proof (Ht _ _ Et) as (C1 & C2 & C3). cbv zeta.
        apply IH; [lia|now rewrite md_replace_len|].
        intros j x. rewrite md_replace_nth by lia. destruct (Nat.eqb_spec j (near p)) as [-> |Nj].
        + intro E. injection E as <-.
          pose proof (upto_le near p (near p)) as U.
          assert (Cnt : add64 (md_count t) 1 = upto near (p + 1) (near p)).
          { rewrite upto_S, Nat.eqb_refl, C1. unfold add64. change w64 with (2 ^ 64). apply N.mod_small. lia. }
          destruct (N.eqb_spec (dmin d meds p) 0) as [Z|Z].
          * destruct (md_found t) eqn:F; cbn [andb negb].
            -- unfold entry_ok. cbn [md_count md_found md_offset]. rewrite F.
               split; [exact Cnt|]. split; [discriminate|]. intros _.
               destruct (C3 eq_refl) as (O1 & O2 & O3 & O4). repeat split; auto. lia.
            -- unfold entry_ok. cbn [md_count md_found md_offset].
               split; [exact Cnt|]. split; [discriminate|]. intros _.
               repeat split; auto; try lia.
          * cbn [andb]. unfold entry_ok. cbn [md_count md_found md_offset].
            split; [exact Cnt|]. split.
            -- intros F q Hq Hj. destruct (N.eq_dec q p) as [-> |]; [exact Z|apply C2; auto; lia].
            -- intro F. destruct (C3 F) as (O1 & O2 & O3 & O4). repeat split; auto. lia.
        + intro E. destruct (Ht _ _ E) as (B1 & B2 & B3). split.
          { rewrite upto_S, B1. destruct (Nat.eqb_spec (near p) j); [congruence|lia]. }
          split.
          * intros F q Hq Hj. apply B2; auto. destruct (N.eq_dec q p) as [-> |]; [congruence|lia].
          * intro F. destruct (B3 F) as (O1 & O2 & O3 & O4). repeat split; auto. lia.
    Qed.

    Lemma dmin_self : forall j a, nth_error meds j = Some a -> near a = j /\ dmin d meds a = 0.
    Proof.
      intros j a E. assert (Ha : a < rows).
      { destruct Hd as [H _]. rewrite Forall_forall in H. apply H. eapply nth_error_In; eauto. }
      assert (Z : dmin d meds a = 0).
      { pose proof (dmin_le meds a a (nth_error_In _ _ E)) as L. rewrite Hself in L. lia. }
      split; [|exact Z]. destruct (Hnear a Ha) as (b & Eb & Db & _). rewrite Z in Db.
      destruct (Nat.eq_dec (near a) j) as [|N1]; [assumption|]. exfalso.
      destruct Hd as [_ H]. eapply (H j (near a)); eauto.
    Qed.

    Lemma sum_members : forall k p, (forall q, q < p -> (near q < k)%nat) ->
      fold_right N.add 0 (map (upto near p) (seq 0 k)) = p.
    Proof.
      intros k p. induction p as [|p IH] using N.peano_ind; intro H.
      - clear. induction (seq 0 k) as [|x l IH]; cbn; [reflexivity|]. rewrite IH. reflexivity.
      - rewrite <- N.add_1_r.
        rewrite (map_ext (upto near (p + 1)) (fun j => upto near p j + (if Nat.eqb (near p) j then 1 else 0)))
          by (intro; apply upto_S).
        assert (X : forall l (g h : nat -> N), fold_right N.add 0 (map (fun j => g j + h j) l) =
          fold_right N.add 0 (map g l) + fold_right N.add 0 (map h l)).
        { clear. induction l as [|x l IH]; intros; cbn; [reflexivity|]. rewrite IH. lia. }
        rewrite X, IH by (intros; apply H; lia). f_equal.
        assert (Y : forall n s, fold_right N.add 0 (map (fun j => if Nat.eqb (near p) j then 1 else 0) (seq s n)) =
          if (Nat.leb s (near p) && Nat.ltb (near p) (s + n))%bool then 1 else 0).
        { clear. induction n as [|n IH]; intro s; cbn [seq map fold_right].
          - destruct (Nat.leb_spec s (near p)), (Nat.ltb_spec (near p) (s + 0)); cbn; lia.
          - rewrite IH. destruct (Nat.eqb_spec (near p) s), (Nat.leb_spec s (near p)), (Nat.leb_spec (S s) (near p)),
              (Nat.ltb_spec (near p) (S s + n)), (Nat.ltb_spec (near p) (s + S n)); cbn; lia. }
        rewrite Y. specialize (H p ltac:(lia)).
        destruct (Nat.leb_spec 0 (near p)), (Nat.ltb_spec (near p) (0 + k)); cbn; lia.
    Qed.

    Lemma print_ok : forall period, exists out, print_medoids m meds period = POk out /\
      reports d rows meds near period out /\ fold_right N.add 0 (map snd out) = rows.
    Proof.
      intro period. unfold print_medoids. rewrite Hrows.
      destruct (report_loop_ok (N.to_nat rows) 0 (map (fun _ => md_zero) meds)) as (tmp & E & Hl & Ht).
      { lia. }
      { apply map_length. }
      { intros j t Et. rewrite nth_error_map in Et. destruct (nth_error meds j); [|discriminate Et].
        injection Et as <-. split; [reflexivity|]. split; [intros; lia|discriminate]. }
      rewrite E. cbn [p_bind]. eexists. split; [reflexivity|]. split.
      - split; [now rewrite map_length|]. intros j a Ea.
        assert (Lj : (j < length tmp)%nat) by (rewrite Hl; apply nth_error_Some; congruence).
        destruct (nth_error tmp j) as [t|] eqn:Et; [|apply nth_error_None in Et; lia].
        destruct (Ht j t Et) as (C1 & C2 & C3).
        destruct (dmin_self j a Ea) as [Na Za].
        assert (Ha : a < rows).
        { destruct Hd as [H _]. rewrite Forall_forall in H. apply H. eapply nth_error_In; eauto. }
        destruct (md_found t) eqn:F; [|exfalso; exact (C2 eq_refl a Ha Na Za)].
        destruct (C3 eq_refl) as (O1 & O2 & O3 & O4).
        assert (Q : forall q, q < rows -> near q = j -> d q a = dmin d meds q).
        { intros q Hq Nq. destruct (Hnear q Hq) as (b & Eb & Db & _). rewrite Nq in Eb. congruence. }
        exists (md_offset t). split; [exact O1|]. split; [exact O2|].
        split; [rewrite Q; auto|]. split; [intros q Hq Nq; rewrite Q by (auto; lia); auto|].
        rewrite nth_error_map, Et. cbn [option_map]. f_equal. f_equal; [|exact C1].
        unfold add64, u64. change w64 with (2 ^ 64). now rewrite N.mul_mod_idemp_l by discriminate.
      - rewrite map_map. cbn [snd].
        replace (map (fun x => md_count x) tmp) with (map (upto near rows) (seq 0 (length tmp))).
        { apply sum_members. rewrite Hl. exact near_lt. }
        symmetry. apply nth_error_ext || idtac.
        clear - Ht. assert (G : forall l s, (forall j t, nth_error l j = Some t -> md_count t = upto near rows (s + j))
          -> map (fun x => md_count x) l = map (upto near rows) (seq s (length l))).
        { induction l as [|x l IH]; intros s H; cbn; [reflexivity|].
          rewrite (H O x eq_refl). replace (s + 0)%nat with s by lia. f_equal.
          apply IH. intros j t Et. rewrite (H (S j) t Et). f_equal. lia. }
        apply G. intros j t Et. apply Ht. exact Et.
    Qed.
  End REPORT.

  (** *** Whole runs *)
  Hypothesis Hsmall : rows < 2 ^ 64.
  Hypothesis Hfar : forall a b, a < rows -> b < rows -> d a b < UMAX.

  Definition near_of (meds : list N) (p : N) : nat :=
    match find_medoid m meds p with POk (r, _) => N.to_nat r | PErr _ => O end.
  Lemma near_ok : forall meds, inr meds -> meds <> [] -> forall p, p < rows ->
    find_medoid m meds p = POk (N.of_nat (near_of meds p), dmin d meds p) /\
    exists a, nth_error meds (near_of meds p) = Some a /\ d p a = dmin d meds p /\
      forall j b, (j < near_of meds p)%nat -> nth_error meds j = Some b -> d p a < d p b.
  Proof.
    intros meds Hi Hn p Hp. unfold near_of.
    destruct (find_medoid_ok meds p Hi Hp) as (r & E & [U|(j & a & J1 & J2 & J3 & J4)]).
    - exfalso. destruct meds as [|b meds]; [congruence|].
      pose proof (Forall_inv Hi) as Hb. cbn beta in Hb.
      pose proof (dmin_le (b :: meds) p b ltac:(now left)) as L. specialize (Hfar p b Hp Hb). lia.
    - rewrite E. subst r. rewrite Nat2N.id. split; [reflexivity|]. exists a. auto.
  Qed.

  Lemma run_ok : forall k period s, pam_initialise m k = POk (Some s) -> good s ->
    N.of_nat (length (p_medoids s)) = k -> k <> 0 ->
    exists r n, (forall fuel, (n <= fuel)%nat -> do_one_pam m fuel k period = POk r) /\
      clustering d rows k period r /\ fst r <= p_cost s.
  Proof.
    intros k period s E G Hk H0.
    destruct (loop_ok s G) as (s' & n & L & (G1 & G2) & L2 & L3 & L4).
    assert (Hne : p_medoids s' <> []).
    { intro E0. rewrite E0 in L2. cbn in L2. lia. }
    assert (As : assigns d rows (p_medoids s') (near_of (p_medoids s'))).
    { intros p Hp. apply near_ok; auto. apply G1. }
    destruct (print_ok (p_medoids s') (near_of (p_medoids s')) G1 Hsmall As
      (fun p Hp => proj1 (near_ok _ (proj1 G1) Hne p Hp)) period) as (out & P1 & P2 & P3).
    exists (p_cost s', out), n. split.
    - intros fuel Hf. unfold do_one_pam. rewrite E. cbn [p_bind]. rewrite (L fuel Hf). cbn [p_bind].
      rewrite P1. reflexivity.
    - split; [|exact L3]. exists (p_medoids s'), (near_of (p_medoids s')). cbn [fst snd].
      repeat split; auto; try (apply G1); try lia; try (apply P2).
  Qed.

  Lemma covers_zero : forall meds, covers meds rows -> total meds = 0.
  Proof.
    intros meds H. unfold Pam_Spec.total. rewrite sum_zero; [reflexivity|].
    intros q Hq. destruct (H q ltac:(lia)) as (a & Ia & Za).
    pose proof (dmin_le meds q a Ia). lia.
  Qed.

  Lemma init_more : forall w n p meds, inr meds -> p + N.of_nat n = rows -> N.of_nat (length meds) = w ->
    exists B, init_loop m n p meds (w + 1) = POk B /\ (B = meds \/ exists x, B = meds ++ [x]).
  Proof.
    intro w. induction n as [|n IH]; intros p meds Hi Hp Hl; cbn [init_loop].
    - exists meds. auto.
    - destruct (is_medoid_ok meds p Hi ltac:(lia)) as (b & Eb & _). rewrite Eb. cbn [p_bind]. destruct b.
      + apply IH; auto. lia.
      + cbv zeta. rewrite app_length. cbn [length].
        destruct (N.eqb_spec (N.of_nat (length meds + 1)) (w + 1)); [|lia].
        eexists. split; [reflexivity|]. right. eauto.
  Qed.
  Lemma init_prefix : forall w n p meds A, inr meds -> p + N.of_nat n = rows -> N.of_nat (length meds) < w ->
    init_loop m n p meds w = POk A -> N.of_nat (length A) = w ->
    exists B, init_loop m n p meds (w + 1) = POk B /\ (B = A \/ exists x, B = A ++ [x]).
  Proof.
    intro w. induction n as [|n IH]; intros p meds A Hi Hp Hl; cbn [init_loop].
    - intros E HA. injection E as <-. lia.
    - destruct (is_medoid_ok meds p Hi ltac:(lia)) as (b & Eb & _). rewrite Eb. cbn [p_bind]. destruct b.
      + apply IH; auto. lia.
      + cbv zeta. assert (Hi' : inr (meds ++ [p])).
        { apply Forall_app. split; [exact Hi|]. constructor; [lia|constructor]. }
        assert (Ll : length (meds ++ [p]) = (length meds + 1)%nat) by (now rewrite app_length).
        destruct (N.eqb_spec (N.of_nat (length (meds ++ [p]))) w) as [E|E].
        * intros EA HA. injection EA as <-.
          destruct (N.eqb_spec (N.of_nat (length (meds ++ [p]))) (w + 1)); [lia|].
          apply init_more; auto. lia.
        * destruct (N.eqb_spec (N.of_nat (length (meds ++ [p]))) (w + 1)); [lia|].
          apply IH; auto; lia.
  Qed.
  Lemma init_next : forall k s, pam_initialise m k = POk (Some s) -> p_cost s <> 0 -> k <> 0 ->
    exists s', pam_initialise m (k + 1) = POk (Some s').
  Proof.
    intros k s E Hc H0. destruct (initialise_ok (k + 1)) as [[E1 H1]|(s' & E1 & _)]; [|eauto].
    exfalso. unfold pam_initialise in E, E1.
    destruct (N.eqb_spec k 0) as [|_]; [contradiction|].
    destruct (N.eqb_spec (k + 1) 0) as [|_]; [lia|]. rewrite Hrows in *.
    destruct (init_loop_ok k (N.to_nat rows) 0 []) as (A & EA & HdA & HlA).
    { split; [constructor|]. intros i j a b H. destruct i; discriminate H. }
    { intros q Hq. lia. }
    { lia. }
    { cbn. lia. }
    destruct (init_loop_ok (k + 1) (N.to_nat rows) 0 []) as (B & EB & HdB & HlB).
    { split; [constructor|]. intros i j a b H. destruct i; discriminate H. }
    { intros q Hq. lia. }
    { lia. }
    { cbn. lia. }
    rewrite EA in E. rewrite EB in E1. cbn [p_bind] in E, E1.
    destruct (N.ltb_spec (N.of_nat (length A)) k) as [|LA]; [discriminate E|].
    destruct HlA as [HlA|[HlA _]]; [|lia].
    rewrite total_cost_ok in E by (apply HdA). cbn [p_bind] in E. injection E as <-. cbn [p_cost] in Hc.
    destruct (N.ltb_spec (N.of_nat (length B)) (k + 1)) as [LB|LB].
    - destruct HlB as [HlB|[_ HcB]]; [lia|].
      destruct (init_prefix k (N.to_nat rows) 0 [] A) as (B' & EB' & HB').
      { constructor. } { lia. } { cbn. lia. } { exact EA. } { exact HlA. }
      rewrite EB in EB'. injection EB' as <-. destruct HB' as [-> |(x & ->)].
      + apply Hc. now apply covers_zero.
      + rewrite app_length in LB. cbn in LB. lia.
    - rewrite total_cost_ok in E1 by (apply HdB). cbn [p_bind] in E1. discriminate E1.
  Qed.

  Lemma first_ok : rows <> 0 -> exists s, pam_initialise m 1 = POk (Some s).
  Proof.
    intro H. destruct (initialise_ok 1) as [[E1 [H1|(meds & _ & Hl & Hc)]]|(s & E & _)]; [discriminate H1| |eauto].
    exfalso. destruct (Hc 0 ltac:(lia)) as (a & Ia & _). destruct meds; [destruct Ia|cbn in Hl; lia].
  Qed.

  Lemma sweep_ok : forall period n k s, pam_initialise m k = POk (Some s) -> k <> 0 ->
    exists rs N0, (forall fuel, (N0 <= fuel)%nat -> sweep m fuel n k period = POk rs) /\
      (length rs <= n)%nat /\
      (forall i r, nth_error rs i = Some r -> clustering d rows (k + N.of_nat i) period r /\
         (fst r = 0 <-> (S i = length rs /\ (length rs < n)%nat) \/ (S i = n /\ fst r = 0))) /\
      ((length rs < n)%nat -> exists i r, nth_error rs i = Some r /\ fst r = 0).
  Proof.
    intro period. induction n as [|n IH]; intros k s E H0; cbn [sweep].
    - exists [], O. repeat split; auto; cbn in *; try lia; destruct i; discriminate H.
    - destruct (initialise_ok k) as [[E1 _]|(s1 & E1 & G & Hk)]; [congruence|].
      rewrite E in E1. injection E1 as <-.
      destruct (run_ok k period s E G Hk H0) as (r & n1 & L & C & Cle).
      destruct (N.eqb_spec (fst r) 0) as [Z|Z].
      + exists [r], n1. split.
        { intros fuel Hf. rewrite (L fuel Hf). cbn [p_bind]. destruct (N.eqb_spec (fst r) 0); [reflexivity|contradiction]. }
        cbn [length]. split; [lia|]. split.
        * intros [|i] x Ex; cbn in Ex; [|destruct i; discriminate Ex]. injection Ex as <-.
          split; [now replace (k + N.of_nat 0) with k by lia|]. split; [|auto].
          intros _. destruct n; [right|left]; split; auto; lia.
        * intros _. exists O, r. auto.
      + destruct (init_next k s E ltac:(lia) H0) as (s' & E').
        destruct (IH (k + 1) s' E' ltac:(lia)) as (rs & n2 & L2 & Len & R & F).
        exists (r :: rs), (Nat.max n1 n2). split.
        { intros fuel Hf. rewrite (L fuel) by lia. cbn [p_bind].
          destruct (N.eqb_spec (fst r) 0); [contradiction|]. rewrite (L2 fuel) by lia. reflexivity. }
        cbn [length]. split; [lia|]. split.
        * intros [|i] x Ex; cbn in Ex.
          -- injection Ex as <-. split; [now replace (k + N.of_nat 0) with k by lia|].
             split; [contradiction|]. intros [[X1 X2]|[_ X]]; [|exact X].
             destruct rs; [|discriminate X1]. destruct n as [|n]; [cbn in X2; lia|].
             destruct (F ltac:(cbn; lia)) as (i & y & Ey & _). destruct i; discriminate Ey.
          -- destruct (R i x Ex) as [R1 R2]. split; [now replace (k + N.of_nat (S i)) with (k + 1 + N.of_nat i) by lia|].
             rewrite R2. split; intros [[X1 X2]|[X1 X2]]; try (left; lia); right; split; auto; lia.
        * intro Hlt. destruct (F ltac:(lia)) as (i & y & Ey & Zy). exists (S i), y. auto.
  Qed.
End ALG.

(** ** Exact distances *)
Lemma gap_exact : forall x y, x < 2 ^ 63 -> y < 2 ^ 63 -> gap x y = (x - y) + (y - x).
Proof.
  intros x y Hx Hy. change (2 ^ 63) with 9223372036854775808 in *. unfold gap, sub64, s64.
  change w64 with 18446744073709551616. rewrite (N.mod_small y) by lia.
  destruct (N.le_gt_cases y x) as [L|L].
  - replace (x + 18446744073709551616 - y) with (x - y + 1 * 18446744073709551616) by lia.
    rewrite N.mod_add by discriminate. rewrite !(N.mod_small (x - y)) by lia.
    destruct (N.ltb_spec (x - y) 9223372036854775808); lia.
  - rewrite !N.mod_small by lia.
    destruct (N.ltb_spec (x + 18446744073709551616 - y) 9223372036854775808); lia.
Qed.
Lemma exact : forall f rows cols, (forall a c, a < rows -> c < cols -> f a c < 2 ^ 63) ->
  (forall a b, a < rows -> b < rows -> manhattan f cols a b < 2 ^ 64 - 1) ->
  no_undef f rows cols /\ not_far f rows cols /\
  forall a b, a < rows -> b < rows -> D f cols a b = manhattan f cols a b.
Proof.
  intros f rows cols Hf Hs.
  assert (E : forall a b, a < rows -> b < rows -> D f cols a b = manhattan f cols a b).
  { intros a b Ha Hb. unfold D.
    rewrite (sum_ext _ _ (fun c => (f a c - f b c) + (f b c - f a c))).
    - apply N.mod_small. eapply N.lt_trans; [apply (Hs a b Ha Hb)|reflexivity].
    - intros c Hc. apply gap_exact; apply Hf; auto; lia. }
  split; [|split; [|exact E]].
  - intros a b c Ha Hb Hc. pose proof (Hf a c Ha Hc) as X. pose proof (Hf b c Hb Hc) as Y.
    change (2 ^ 63) with 9223372036854775808 in *. unfold sub64. change w64 with 18446744073709551616.
    rewrite (N.mod_small (f b c)) by lia. destruct (N.le_gt_cases (f b c) (f a c)) as [L|L].
    + replace (f a c + 18446744073709551616 - f b c) with (f a c - f b c + 1 * 18446744073709551616) by lia.
      rewrite N.mod_add by discriminate. rewrite N.mod_small by lia. lia.
    + rewrite N.mod_small by lia. lia.
  - intros a b Ha Hb. rewrite E by assumption. specialize (Hs a b Ha Hb). change UMAX with (2 ^ 64 - 1). lia.
Qed.

Lemma manhattan_zero : forall f cols a b, manhattan f cols a b = 0 <-> forall c, c < cols -> f a c = f b c.
Proof.
  intros f cols a b. unfold manhattan. split.
  - intros H c Hc. assert (X : forall n, sum_to n (fun c => (f a c - f b c) + (f b c - f a c)) = 0 ->
      forall i, i < N.of_nat n -> f a i = f b i).
    { induction n as [|n IH]; intros E i Hi; [lia|]. cbn [sum_to] in E.
      destruct (N.eq_dec i (N.of_nat n)) as [-> |]; [lia|apply IH; lia]. }
    apply (X _ H). lia.
  - intro H. apply sum_zero. intros i Hi. rewrite H by lia. lia.
Qed.

(** ** For a matrix *)
Section ALL.
  Variable m : matrix.
  Variables rows cols : N.
  Variable f : N -> N -> N.
  Hypothesis Hm : holds m rows cols f.
  Hypothesis Hu : no_undef f rows cols.
  Notation d := (D f cols).

  Lemma a_init : forall wanted,
    (pam_initialise m wanted = POk None /\
       (wanted = 0 \/ exists meds, distinct d rows meds /\ N.of_nat (length meds) < wanted /\
          forall q, q < rows -> exists a, In a meds /\ d q a = 0)) \/
    exists s, pam_initialise m wanted = POk (Some s) /\ distinct d rows (p_medoids s) /\
      p_cost s = total d rows (p_medoids s) /\ N.of_nat (length (p_medoids s)) = wanted.
  Proof.
    intro wanted.
    destruct (initialise_ok m rows d (mrows m rows cols f Hm) (dist_ok m rows cols f Hm Hu)
      (fun a b Ha Hb => D_sym f rows cols a b Hu Ha Hb) (D_self f cols) wanted) as [[E [H|H]]|(s & E & [G1 G2] & H)].
    - left. auto.
    - left. split; [exact E|]. right. exact H.
    - right. exists s. auto.
  Qed.
  Lemma a_iteration : forall s, distinct d rows (p_medoids s) -> p_cost s = total d rows (p_medoids s) ->
    exists s' more, pam_iteration m s = POk (s', more) /\
      distinct d rows (p_medoids s') /\ p_cost s' = total d rows (p_medoids s') /\
      length (p_medoids s') = length (p_medoids s) /\ p_cost s' <= p_cost s /\
      (more = true -> p_cost s' < p_cost s) /\
      (more = false -> p_cost s' = 0 \/ (s' = s /\ local_optimum d rows (p_medoids s) (p_cost s))).
  Proof.
    intros s H1 H2.
    destruct (iteration_ok m rows d (mrows m rows cols f Hm) (dist_ok m rows cols f Hm Hu)
      (fun a b Ha Hb => D_sym f rows cols a b Hu Ha Hb) (D_self f cols) s (conj H1 H2)) as (s' & pr & E & [G1 G2] & R).
    exists s', pr. repeat (split; [assumption|]). exact R.
  Qed.
  Lemma a_loop : forall s, distinct d rows (p_medoids s) -> p_cost s = total d rows (p_medoids s) ->
    exists s' n, (forall fuel, (n <= fuel)%nat -> pam_loop m fuel s = POk s') /\
      distinct d rows (p_medoids s') /\ p_cost s' = total d rows (p_medoids s') /\
      length (p_medoids s') = length (p_medoids s) /\ p_cost s' <= p_cost s /\
      (p_cost s' = 0 \/ local_optimum d rows (p_medoids s') (p_cost s')).
  Proof.
    intros s H1 H2.
    destruct (loop_ok m rows d (mrows m rows cols f Hm) (dist_ok m rows cols f Hm Hu)
      (fun a b Ha Hb => D_sym f rows cols a b Hu Ha Hb) (D_self f cols) s (conj H1 H2)) as (s' & n & L & [G1 G2] & R).
    exists s', n. repeat (split; [assumption|]). exact R.
  Qed.

  Hypothesis Hsmall : rows < 2 ^ 64.
  Hypothesis Hfar : not_far f rows cols.
  Lemma far : forall a b, a < rows -> b < rows -> d a b < UMAX.
  Proof.
    intros a b Ha Hb. pose proof (Hfar a b Ha Hb).
    assert (d a b < 2 ^ 64) by (unfold D; apply N.mod_lt; discriminate).
    change (2 ^ 64) with (UMAX + 1) in *. lia.
  Qed.
  Lemma a_run : forall k period,
    (forall fuel, do_one_pam m fuel k period = PErr PExit) \/
    exists r n, (forall fuel, (n <= fuel)%nat -> do_one_pam m fuel k period = POk r) /\ clustering d rows k period r.
  Proof.
    intros k period.
    destruct (initialise_ok m rows d (mrows m rows cols f Hm) (dist_ok m rows cols f Hm Hu)
      (fun a b Ha Hb => D_sym f rows cols a b Hu Ha Hb) (D_self f cols) k) as [[E _]|(s & E & G & H)].
    - left. intro fuel. unfold do_one_pam. rewrite E. reflexivity.
    - right. destruct (N.eq_dec k 0) as [-> |H0]; [discriminate E|].
      destruct (run_ok m rows d (mrows m rows cols f Hm) (dist_ok m rows cols f Hm Hu)
        (fun a b Ha Hb => D_sym f rows cols a b Hu Ha Hb) (D_self f cols) Hsmall far k period s E G H H0)
        as (r & n & L & C & _).
      exists r, n. auto.
  Qed.
  Lemma a_sweep : forall period, rows <> 0 ->
    exists rs n, (forall fuel, (n <= fuel)%nat -> cluster m fuel 0 period = POk rs) /\
      rs <> [] /\ (length rs <= 32)%nat /\
      forall i r, nth_error rs i = Some r ->
        clustering d rows (1 + N.of_nat i) period r /\
        ((S i < length rs)%nat -> fst r <> 0) /\
        (S i = length rs -> (length rs < 32)%nat -> fst r = 0).
  Proof.
    intros period H0.
    destruct (first_ok m rows d (mrows m rows cols f Hm) (dist_ok m rows cols f Hm Hu)
      (fun a b Ha Hb => D_sym f rows cols a b Hu Ha Hb) (D_self f cols) Hsmall far H0) as (s & E).
    destruct (sweep_ok m rows d (mrows m rows cols f Hm) (dist_ok m rows cols f Hm Hu)
      (fun a b Ha Hb => D_sym f rows cols a b Hu Ha Hb) (D_self f cols) Hsmall far period 32 1 s E ltac:(discriminate))
      as (rs & n & L & Len & R & F).
    exists rs, n. split; [exact L|]. split.
    { intros ->. destruct (F ltac:(cbn; lia)) as (i & r & X & _). destruct i; discriminate X. }
    split; [exact Len|]. intros i r Er. destruct (R i r Er) as [R1 R2]. split; [exact R1|].
    assert (Li : (i < length rs)%nat) by (apply nth_error_Some; congruence).
    split.
    - intros Hi Z. apply R2 in Z. destruct Z as [[Z _]|[Z _]]; lia.
    - intros Hi Hl. apply R2. left. auto.
  Qed.
End ALL.
