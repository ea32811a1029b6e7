(** Proofs for C80: the TLB and the table of basic blocks never fail but by an
    assert. *)
Require Import NArith ZArith List Bool Lia Permutation.
Require Import ZifyBool ZifyN ZifyNat.
Require Import Verif.Word Verif.Tlb_Model Verif.Tlb_Spec Verif.Tlb_Proofs.
Require Verif.Bb_Model.
Import ListNotations.
Local Open Scope N_scope.

(** ** htm/tlb.c *)
Definition null (s : tlbs) : bool := match tlb_arr s with None => true | Some _ => false end.
Definition tlb_ok (n : N) (s : tlbs) : Prop :=
  tlb_next s <= tlb_size s /\ tlb_next s <= n /\ (tlb_size s = 0 -> null s = true).
Section TLB.
Variable big : Prop.
Definition tsafe {A} (r : tres A) (Q : A -> Prop) : Prop :=
  match r with TOk a => Q a | TErr e => e = TAssert \/ big /\ e = TOverflow end.
Lemma tsafe_bind : forall A B (x : tres A) (k : A -> tres B) P Q,
  tsafe x P -> (forall a, P a -> tsafe (k a) Q) -> tsafe (tbind x k) Q.
Proof. intros A B [a|e] k P Q Hx Hk; cbn in *; auto. Qed.
Lemma tsafe_assert : forall b (Q : unit -> Prop), (b = true -> Q tt) -> tsafe (tassert b) Q.
Proof. intros [|] Q H; cbn; auto. Qed.
Lemma tsafe_weak : forall A (x : tres A) (P Q : A -> Prop), tsafe x P -> (forall a, P a -> Q a) -> tsafe x Q.
Proof. intros A [a|e] P Q Hx H; cbn in *; auto. Qed.

Lemma entry_safe : forall l i (Q : tlbe -> Prop), (0 <= i < Z.of_nat (length l))%Z -> (forall t, Q t) -> tsafe (get_entry l i) Q.
Proof.
  intros l i Q H HQ. unfold get_entry. rewrite (proj2 (Z.ltb_ge i 0)) by lia.
  destruct (nth_error l (Z.to_nat i)) as [t|] eqn:E; [apply HQ|]. apply nth_error_None in E. lia.
Qed.
Lemma search_safe : forall fuel l ea first last,
  (0 <= first)%Z -> (last < Z.of_nat (length l))%Z -> (last - first < Z.of_nat fuel)%Z ->
  tsafe (search fuel l ea first last) (fun r => match r with Some i => (i < length l)%nat | None => True end).
Proof.
  induction fuel as [|fuel IH]; intros l ea first last H1 H2 H3; cbn [search].
  - destruct (Z.leb_spec first last); [lia|exact I].
  - destruct (Z.leb_spec first last) as [L|L]; [|exact I]. cbv zeta.
    assert (M : (first <= (first + last) / 2 <= last)%Z).
    { split; [apply Z.div_le_lower_bound; lia|].
      apply Z.le_trans with ((last + last) / 2)%Z; [apply Z.div_le_mono; lia|].
      replace (last + last)%Z with (last * 2)%Z by lia. rewrite Z.div_mul by lia. lia. }
    set (m := ((first + last) / 2)%Z) in *. clearbody m.
    eapply tsafe_bind; [apply (entry_safe l m (fun _ => True)); [lia|auto]|]. intros t _.
    eapply tsafe_bind.
    { unfold tlb_compare. eapply tsafe_bind; [apply tsafe_assert with (Q := fun _ => True); auto|].
      intros _ _. cbn. exact (I : (fun _ : Z => True) _). }
    intros r _. destruct (r <? 0)%Z; [destruct (first =? last)%Z; [exact I|apply IH; lia]|].
    destruct (0 <? r)%Z; [destruct (first =? last)%Z; [exact I|apply IH; lia]|].
    cbn. lia.
Qed.

Lemma replace_len : forall l i t, (i < length l)%nat -> length (replace l i t) = length l.
Proof. intros l i t H. unfold replace. rewrite app_length. cbn [length]. rewrite firstn_length, skipn_length. lia. Qed.
Lemma set_arr_size : forall s l, length l = length (arr s) -> tlb_size (set_arr s l) = tlb_size s.
Proof. intros s l H. unfold tlb_size, set_arr, arr in *. cbn [tlb_arr]. destruct (tlb_arr s); [rewrite H|]; reflexivity. Qed.

Lemma index_safe : forall s ea start, tlb_next s <= tlb_size s -> (0 <= start)%Z ->
  tsafe (tlb_get_index s ea start) (fun x =>
    tlb_next (snd x) = tlb_next s /\ tlb_size (snd x) = tlb_size s /\ null (snd x) = null s
    /\ match fst x with Some i => N.of_nat i < tlb_size s | None => True end).
Proof.
  intros s ea start H H0. unfold tlb_get_index. cbv zeta. unfold tlb_size in H.
  eapply tsafe_bind; [apply search_safe; lia|]. intros [i|] Hi; cbn beta iota in Hi.
  - destruct (nth_error (arr s) i) as [t|] eqn:E; [|apply nth_error_None in E; lia].
    cbn [tsafe fst snd]. split; [reflexivity|]. split; [apply set_arr_size, replace_len, Hi|].
    split; [unfold null, set_arr; cbn [tlb_arr]; destruct (tlb_arr s); reflexivity|]. unfold tlb_size. lia.
  - cbn. auto.
Qed.

Lemma overlaps_safe : forall n s i, tlb_next s <= tlb_size s -> N.of_nat (i + n) <= tlb_next s ->
  tsafe (check_overlaps s i n) (fun _ => True).
Proof.
  induction n as [|n IH]; intros s i H L; cbn [check_overlaps]; [exact I|].
  assert (NM : forall ea, tsafe (no_match s ea (Z.of_nat i + 1)) (fun _ => True)).
  { intros ea. unfold no_match. eapply tsafe_bind; [apply index_safe; [exact H|lia]|].
    intros x _. apply tsafe_assert. auto. }
  eapply tsafe_bind; [apply (entry_safe _ _ (fun _ => True)); [unfold tlb_size in H; lia|auto]|]. intros t _.
  eapply tsafe_bind; [apply NM|]. intros _ _.
  eapply tsafe_bind; [apply NM|]. intros _ _.
  apply IH; [exact H|lia].
Qed.
Lemma validate_safe : forall s, tlb_next s <= tlb_size s -> tsafe (tlb_validate s) (fun _ => True).
Proof.
  intros s H. unfold tlb_validate.
  eapply tsafe_bind; [apply tsafe_assert with (Q := fun _ => True); auto|]. intros _ _.
  eapply tsafe_bind; [apply overlaps_safe; [exact H|lia]|]. intros _ _. apply tsafe_assert. auto.
Qed.

Lemma get_safe : forall s ea flags n, tlb_ok n s ->
  tsafe (tlb_ra_get s ea flags) (fun x => tlb_ok n (snd x)).
Proof.
  intros s ea flags n (H1 & H2 & HN). unfold tlb_ra_get. destruct (_ =? 0); [split; auto|]. cbv zeta.
  match goal with |- tsafe (tbind (tlb_get_index ?s1 _ _) _) _ =>
    eapply tsafe_bind; [apply (index_safe s1); [exact H1|lia]|] end.
  intros [[i|] s2] (E1 & E2 & EN & E3); cbn [fst snd] in *;
    change (tlb_next s2 = tlb_next s) in E1; change (tlb_size s2 = tlb_size s) in E2;
    change (null s2 = null s) in EN.
  - change (N.of_nat i < tlb_size s) in E3.
    eapply tsafe_bind; [apply (entry_safe _ _ (fun _ => True)); [unfold tlb_size in *; lia|auto]|]. intros t _.
    eapply tsafe_bind with (P := fun _ => True).
    { unfold tlb_translate. repeat (eapply tsafe_bind; [apply tsafe_assert with (Q := fun _ => True); auto|intros _ _]). exact I. }
    intros ra _. cbn [tsafe snd]. unfold tlb_ok. rewrite E1, E2, EN. auto.
  - cbn [tsafe snd]. unfold tlb_ok. change (tlb_next s2 <= tlb_size s2 /\ tlb_next s2 <= n /\ (tlb_size s2 = 0 -> null s2 = true)).
    rewrite E1, E2, EN. auto.
Qed.

Lemma set_safe : forall qs s ea flags ra ps n, sorter qs -> tlb_ok n s -> n < 2 ^ 30 \/ big ->
  tsafe (tlb_ra_set qs s ea flags ra ps) (tlb_ok (n + 1)).
Proof.
  intros qs s ea flags ra ps n HS (H1 & H2 & HN) Hn. change (2 ^ 30) with 1073741824 in Hn.
  unfold tlb_ra_set. destruct (_ =? 0); [split; [lia|split; [lia|exact HN]]|].
  do 2 (eapply tsafe_bind; [apply tsafe_assert with (Q := fun _ => True); auto|intros _ _]).
  eapply tsafe_bind; [apply index_safe; [exact H1|lia]|].
  intros x (E1 & E2 & EN & E3).
  eapply tsafe_bind with (P := fun y : nat * tlbs => tlb_ok (n + 1) (snd y) /\ N.of_nat (fst y) < tlb_size (snd y)).
  { destruct x as [[i|] s1]; cbn [fst snd] in *; [cbn; split; [split; [lia|split; [lia|rewrite E2, EN; exact HN]]|lia]|].
    eapply tsafe_bind with (P := fun s2 => tlb_next s2 = tlb_next s1 /\ tlb_next s1 < tlb_size s2).
    - destruct (N.eqb_spec (tlb_size s1) (tlb_next s1)) as [EQ|NE]; [|cbn; split; [reflexivity|lia]].
      unfold tlb_allocate. destruct (tlb_arr s1) as [l|] eqn:EA.
      + destruct (N.ltb_spec (tlb_size s1 * 2) 2147483648) as [LT|GE];
          [|destruct Hn as [Hn|Hn]; [lia|right; split; [exact Hn|reflexivity]]].
        cbv zeta. set (s' := mk_tlbs _ _ _ _ _).
        assert (SZ : tlb_size s' = tlb_size s1 * 2).
        { unfold s', tlb_size, arr. cbn [tlb_arr]. rewrite EA, app_length, repeat_length. lia. }
        assert (NX : tlb_next s' = tlb_next s1) by reflexivity.
        assert (NZ : tlb_size s1 <> 0).
        { intros Z0. rewrite Z0 in E2. specialize (HN (eq_sym E2)). rewrite <- EN in HN. unfold null in HN. rewrite EA in HN. discriminate HN. }
        eapply tsafe_bind; [apply validate_safe; lia|]. intros _ _. cbn. split; [exact NX|lia].
      + cbn. split; [reflexivity|]. unfold tlb_size, arr in *. rewrite EA in EQ. cbn in EQ |- *. lia.
    - intros s2 [F1 F2]. cbn [tsafe fst snd]. unfold tlb_ok, tlb_size, arr in *. cbn [tlb_next tlb_arr]. split; [split; [lia|split; lia]|lia]. }
  intros [i s3] [(O1 & O2 & O3) I3]; cbn [fst snd] in *.
  eapply tsafe_bind; [apply (entry_safe _ _ (fun _ => True)); [unfold tlb_size in *; lia|auto]|]. intros t _. cbv zeta.
  assert (IL : (i < length (arr s3))%nat) by (unfold tlb_size in I3; lia).
  destruct (tlb_equal _ t).
  - cbn [tsafe]. unfold tlb_ok. rewrite set_arr_size by (apply replace_len, IL).
    change (tlb_next (set_arr s3 (replace (arr s3) i (mk_tlbe (t_ea t) (t_ra t) (t_size t) (t_hit t) (add64 (t_miss t) 1) (t_valid t)))))
      with (tlb_next s3). split; [assumption|split; [assumption|]]. intros Z0. lia.
  - set (s4 := mk_tlbs _ _ _ _ _).
    assert (SZ : tlb_size s4 = tlb_size s3).
    { unfold s4, tlb_size. destruct (tlb_arr s3) as [l|] eqn:EA; [|unfold arr; cbn [tlb_arr]; rewrite EA; reflexivity].
      unfold arr at 1. cbn [tlb_arr]. rewrite app_length.
      set (l2 := replace _ _ _).
      assert (PL : length (qs tlb_compare_ea (firstn (N.to_nat (tlb_next s3)) l2)) = length (firstn (N.to_nat (tlb_next s3)) l2)).
      { symmetry. apply Permutation_length. apply HS. apply compare_ea_ok. }
      rewrite PL, <- app_length, firstn_skipn. unfold l2. rewrite replace_len by exact IL. reflexivity. }
    eapply tsafe_bind; [apply validate_safe; rewrite SZ; exact O1|]. intros _ _.
    cbn [tsafe]. unfold tlb_ok. rewrite SZ. split; [exact O1|split; [exact O2|lia]].
Qed.

Lemma run_safe : forall qs h s n, sorter qs -> tlb_ok n s -> n + N.of_nat (length h) < 2 ^ 30 \/ big ->
  tsafe (tlb_run qs s h) (fun _ => True).
Proof.
  intros qs h. induction h as [|[ea fl ra ps|ea fl] h IH]; intros s n HS HO HN; cbn [tlb_run]; [exact I| |];
    change (2 ^ 30) with 1073741824 in *; cbn [length] in HN.
  - assert (HN1 : n < 2 ^ 30 \/ big)
      by (change (2 ^ 30) with 1073741824; destruct HN as [HN|HN]; [left; lia|right; exact HN]).
    assert (HN2 : n + 1 + N.of_nat (length h) < 2 ^ 30 \/ big)
      by (change (2 ^ 30) with 1073741824; destruct HN as [HN|HN]; [left; lia|right; exact HN]).
    eapply tsafe_bind; [apply set_safe; eassumption|]. intros s' H'. exact (IH s' (n + 1) HS H' HN2).
  - assert (HN2 : n + N.of_nat (length h) < 2 ^ 30 \/ big)
      by (change (2 ^ 30) with 1073741824; destruct HN as [HN|HN]; [left; lia|right; exact HN]).
    eapply tsafe_bind; [apply get_safe; eassumption|]. intros x H'.
    eapply tsafe_bind; [exact (IH (snd x) n HS H' HN2)|]. intros y _. exact I.
Qed.
End TLB.
Theorem tlb_stops : forall qs h e, sorter qs -> tlb_run qs tlb_zero h = TErr e ->
  e = TAssert \/ 2 ^ 30 <= N.of_nat (length h) /\ e = TOverflow.
Proof.
  intros qs h e HS E. pose proof (run_safe (2 ^ 30 <= N.of_nat (length h)) qs h tlb_zero 0 HS) as R.
  rewrite E in R. apply R; [repeat split; cbn; lia|].
  destruct (N.lt_ge_cases (N.of_nat (length h)) (2 ^ 30)); [left; rewrite N.add_0_l; assumption|right; assumption].
Qed.

(** ** qtlib/bb.c *)
Section BB.
Import Verif.Bb_Model.
Definition bb_ok (n : N) (s : bbs) : Prop :=
  bb_next s <= bb_size s /\ bb_next s <= n /\ bb_size s <> 0
  /\ Forall (fun o => snd o < bb_next s) (bb_ht s).
Lemma size_some : forall l n k h, bb_size (mk_bbs (Some l) n k h) = N.of_nat (length l).
Proof. reflexivity. Qed.
Lemma update_ok : forall l i f, i < N.of_nat (length l) ->
  exists l', bb_update l i f = BOk l' /\ length l' = length l.
Proof.
  intros l i f H. unfold bb_update. destruct (nth_error l (N.to_nat i)) as [t|] eqn:E.
  - eexists. split; [reflexivity|]. rewrite app_length. cbn [length]. rewrite firstn_length, skipn_length. lia.
  - apply nth_error_None in E. lia.
Qed.
Lemma log_safe : forall (big : Prop) s ea n, bb_ok n s -> n < 2 ^ 30 \/ big ->
  (exists s', bb_ea_log s ea = BOk s' /\ bb_ok (n + 1) s') \/ big /\ bb_ea_log s ea = BErr BOverflow.
Proof.
  intros big s ea n (H1 & H2 & H3 & H4) Hn. change (2 ^ 30) with 1073741824 in Hn.
  unfold bb_ea_log. cbv zeta. destruct (ht_get (bb_ht s) ea) as [i|] eqn:E.
  - assert (I : i < bb_next s).
    { unfold ht_get in E. destruct (find _ (bb_ht s)) as [o|] eqn:F; [|discriminate E].
      cbn in E. assert (X : snd o = i) by congruence. subst i. apply find_some in F as [F _].
      rewrite Forall_forall in H4. apply H4, F. }
    destruct (update_ok (Bb_Model.arr s) i (fun t => mk_bbe (b_ea t) (b_size t) (add64 (b_hit t) 1) (b_valid t))) as (l & -> & L);
      [unfold bb_size in *; lia|].
    left. eexists. split; [reflexivity|]. unfold bb_ok. cbn [bb_next bb_ht]. rewrite !size_some. unfold bb_size in *.
    rewrite L. repeat split; try assumption; lia.
  - assert (A : big /\ bb_allocate s = BErr BOverflow /\ bb_size s = bb_next s \/ exists s1, (if bb_size s =? bb_next s then bb_allocate s else BOk s) = BOk s1
                /\ bb_next s1 = bb_next s /\ bb_next s < bb_size s1 /\ bb_ht s1 = bb_ht s).
    { destruct (N.eqb_spec (bb_size s) (bb_next s)) as [EQ|NE].
      - unfold bb_allocate. destruct (bb_arr s) as [l|] eqn:EA.
        + destruct (N.ltb_spec (bb_size s * 2) 2147483648) as [LT|GE];
            [|left; destruct Hn as [Hn|Hn]; [lia|split; [exact Hn|split; [reflexivity|exact EQ]]]].
          right. eexists. split; [reflexivity|]. split; [reflexivity|]. split; [|reflexivity].
          unfold bb_size, Bb_Model.arr in *. cbn [bb_arr]. rewrite EA in *. rewrite app_length, repeat_length. lia.
        + exfalso. apply H3. unfold bb_size, Bb_Model.arr. rewrite EA. reflexivity.
      - right. exists s. repeat split; lia. }
    destruct A as [(B & A1 & A2)|A]; [right; split; [exact B|]; rewrite A2, N.eqb_refl, A1; reflexivity|].
    destruct A as (s1 & -> & A1 & A2 & A3).
    destruct (update_ok (Bb_Model.arr s1) (bb_next s1) (fun _ => mk_bbe ea 1 1 true)) as (l & -> & L);
      [unfold bb_size in *; lia|].
    left. eexists. split; [reflexivity|]. unfold bb_ok. cbn [bb_next bb_ht]. rewrite !size_some. unfold bb_size in *.
    rewrite L, A1, A3. repeat split; try lia.
    constructor; [cbn [snd]; lia|]. eapply Forall_impl; [|exact H4]. cbn. intros. lia.
Qed.
End BB.
