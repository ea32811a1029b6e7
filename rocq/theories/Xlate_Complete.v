(** Completion of a walk whose last record is missing. *)
Require Import NArith ZArith List Bool Lia.
Require Import Verif.Word Verif.Codec_Types Verif.Pwc_Model Verif.Xlate_Model Verif.Xlate_Spec Verif.Xlate_Proofs.
Import ListNotations.
Local Open Scope N_scope.

(** The walk with the record of the real address appended. *)
Definition completed (x : xlate) (r : N) : xlate :=
  mk_xlate (x_dside x) (x_lpid x) (x_pid x) (S (x_nwalks x))
    (records_of x ++ mk_walk true false true true 0 r :: skipn (S (x_nwalks x)) (x_walks x)).
Definition incomplete (x : xlate) : Prop :=
  (0 < x_nwalks x < 38)%nat /\
  (wk_final (last (records_of x) zero_walk) = false \/ wk_host (last (records_of x) zero_walk) = false) /\
  nth (x_nwalks x) (x_walks x) zero_walk = zero_walk.

Lemma nth_last {A} (l : list A) d n : (n < length l)%nat -> nth n l d = last (firstn (S n) l) d.
Proof.
  revert n. induction l as [|a l IH]; intros n H; [cbn in H; lia|].
  destruct n; [reflexivity|]. cbn [nth length] in *. rewrite IH by lia.
  change (firstn (S (S n)) (a :: l)) with (a :: firstn (S n) l).
  destruct l; [cbn in H; lia|]. reflexivity.
Qed.
Lemma complete_last x : xlate_wf x -> (0 < x_nwalks x)%nat ->
  xlate_complete x = wk_final (last (records_of x) zero_walk) && wk_host (last (records_of x) zero_walk).
Proof.
  intros [H1 H2] H. unfold xlate_complete, records_of. destruct (x_nwalks x) as [|n] eqn:E; [lia|].
  rewrite nth_last by lia. reflexivity.
Qed.
Lemma completed_complete x r : xlate_wf x -> xlate_complete (completed x r) = true.
Proof.
  intros [H1 H2]. unfold xlate_complete, completed. cbn [x_nwalks x_walks].
  rewrite app_nth2; rewrite (records_length x (conj H1 H2)); [|lia]. rewrite Nat.sub_diag. reflexivity.
Qed.
Lemma fixup_completed x m r : xlate_wf x -> m_hv m = false -> (x_nwalks x < 38)%nat ->
  nth (x_nwalks x) (x_walks x) zero_walk = zero_walk -> xlate_fixup x m true r = XOk (completed x r).
Proof.
  intros [H1 H2] Hm Hn Hz. unfold xlate_fixup. rewrite Hm. cbn [negb andb].
  destruct (nth_error (x_walks x) (x_nwalks x)) as [w|] eqn:E.
  - apply nth_error_nth with (d := zero_walk) in E. rewrite Hz in E. subst w. reflexivity.
  - apply nth_error_None in E. lia.
Qed.
Lemma match_same n x r : xlate_wf x -> (0 < x_nwalks x)%nat -> xlate_match n (completed x r) = xlate_match n x.
Proof.
  intros [H1 H2] H. unfold xlate_match, completed, records_of. cbn [x_walks x_lpid x_pid].
  destruct (x_walks x) as [|w ws]; [discriminate|]. destruct (x_nwalks x); [lia|]. reflexivity.
Qed.
Lemma hd_same x r : xlate_wf x -> (0 < x_nwalks x)%nat ->
  hd zero_walk (x_walks (completed x r)) = hd zero_walk (x_walks x).
Proof.
  intros [H1 H2] H. unfold completed, records_of. cbn [x_walks].
  destruct (x_walks x) as [|w ws]; [discriminate|]. destruct (x_nwalks x); [lia|]. reflexivity.
Qed.
Lemma records_completed x r : xlate_wf x ->
  firstn (S (x_nwalks x)) (x_walks (completed x r)) = records_of x ++ [mk_walk true false true true 0 r].
Proof.
  intros H. unfold completed. cbn [x_walks].
  rewrite <- (records_length x H) at 1. rewrite <- Nat.add_1_r. rewrite firstn_app_2. reflexivity.
Qed.
Lemma kept_le needle ws : (kept needle ws <= length ws)%nat.
Proof. induction ws as [|w ws IH]; cbn [kept length]; [lia|]. destruct (_ || _); lia. Qed.
Lemma repeat_split {A} (a : A) n m : (m < n)%nat -> repeat a (n - m) = a :: repeat a (n - S m).
Proof. intro H. replace (n - m)%nat with (S (n - S m)) by lia. reflexivity. Qed.
Lemma merge_completed n x m r : xlate_wf n -> xlate_wf x -> incomplete x -> m_hv m = false ->
  xlate_merge n (completed x r) =
  match xlate_merge n x with
  | XErr e => XErr e
  | XOk y => xlate_fixup y m true r
  end.
Proof.
  intros Hn Hx ((Hn0 & Hn1) & Hl & Hz) Hm. unfold xlate_merge. rewrite (hd_same x r Hx Hn0).
  rewrite <- (eq_refl : x_lpid x = x_lpid (completed x r)), <- (eq_refl : x_pid x = x_pid (completed x r)).
  destruct (negb _); [reflexivity|].
  set (ow := firstn (x_nwalks n) (x_walks n)). set (i := kept _ ow).
  assert (Hi : (i <= length ow)%nat) by apply kept_le. clearbody i.
  destruct (i =? x_nwalks n)%nat; [reflexivity|].
  cbn [x_nwalks x_dside x_lpid x_pid x_walks].
  change (x_nwalks (completed x r)) with (S (x_nwalks x)).
  rewrite (records_completed x r Hx).
  destruct (NWALKS <? i + x_nwalks x)%nat eqn:E1.
  - replace (NWALKS <? i + S (x_nwalks x))%nat with true; [reflexivity|].
    symmetry. apply Nat.ltb_lt. apply Nat.ltb_lt in E1. lia.
  - apply Nat.ltb_ge in E1.
    assert (Hlen : length (firstn i ow ++ records_of x) = (i + x_nwalks x)%nat).
    { rewrite app_length, firstn_length, (records_length x Hx). lia. }
    unfold xlate_fixup. rewrite Hm. cbn [negb andb x_nwalks x_walks x_dside x_lpid x_pid].
    change (firstn (x_nwalks x) (x_walks x)) with (records_of x).
    destruct (NWALKS <? i + S (x_nwalks x))%nat eqn:E2.
    + apply Nat.ltb_lt in E2. assert (E3 : (i + x_nwalks x = NWALKS)%nat) by lia. rewrite E3 in *.
      rewrite Nat.sub_diag. cbn [repeat]. rewrite app_nil_r.
      replace (nth_error (firstn i ow ++ records_of x) NWALKS) with (@None walk); [reflexivity|].
      symmetry. apply nth_error_None. lia.
    + apply Nat.ltb_ge in E2.
      rewrite (repeat_split zero_walk NWALKS (i + x_nwalks x)) by lia.
      set (t := repeat zero_walk (NWALKS - S (i + x_nwalks x))).
      rewrite (app_assoc (firstn i ow) (records_of x) (zero_walk :: t)).
      assert (E3 : forall k : list walk, nth_error (k ++ zero_walk :: t) (length k) = Some zero_walk
        /\ firstn (length k) (k ++ zero_walk :: t) = k /\ skipn (S (length k)) (k ++ zero_walk :: t) = t).
      { induction k as [|b k (I1 & I2 & I3)]; [now repeat split|].
        split; [exact I1|]. split; [|exact I3]. cbn [length app firstn]. now rewrite I2. }
      specialize (E3 (firstn i ow ++ records_of x)). rewrite Hlen in E3. destruct E3 as (E3 & E4 & E5).
      rewrite E3, E4, E5. rewrite <- !app_assoc. cbn [app].
      replace (i + S (x_nwalks x))%nat with (S (i + x_nwalks x)) by lia. reflexivity.
Qed.
Lemma lookup_completed l x m r : Forall xlate_wf l -> xlate_wf x -> incomplete x -> m_hv m = false ->
  partial_lookup l (completed x r) =
  match partial_lookup l x with
  | XErr e => XErr e
  | XOk (None, l') => XOk (None, l')
  | XOk (Some y, l') => match xlate_fixup y m true r with XErr e => XErr e | XOk z => XOk (Some z, l') end
  end.
Proof.
  intros Hl Hx Hi Hm. induction Hl as [|n l Hn Hl IH]; [reflexivity|]. cbn [partial_lookup].
  rewrite (match_same n x r Hx (proj1 (proj1 Hi))). destruct (xlate_match n x).
  - rewrite (merge_completed n x m r Hn Hx Hi Hm). destruct (xlate_merge n x); [|reflexivity].
    destruct (xlate_fixup a m true r); reflexivity.
  - rewrite IH. destruct (partial_lookup l x) as [[[y|] l']|e]; try reflexivity.
    destruct (xlate_fixup y m true r); reflexivity.
Qed.

Lemma decode_completed st x m a r : xlate_wf x -> Forall xlate_wf (xs_partial st) -> incomplete x ->
  m_hv m = false ->
  xlate_decode st x m true a r = xlate_decode st (completed x r) m true a r.
Proof.
  intros Hx Hp Hi Hm. unfold xlate_decode. rewrite (lookup_completed _ x m r Hp Hx Hi Hm).
  destruct (lookup_spec (xs_partial st) x Hp Hx) as [[E _]|(l1 & n & l2 & pre & El & _ & O & K & E)].
  - rewrite E. rewrite (completed_complete x r Hx).
    rewrite (complete_last x Hx (proj1 (proj1 Hi))).
    replace (wk_final (last (records_of x) zero_walk) && wk_host (last (records_of x) zero_walk)) with false
      by (symmetry; apply andb_false_iff; exact (proj1 (proj2 Hi))).
    rewrite (fixup_completed x m r Hx Hm (proj2 (proj1 Hi)) (proj2 (proj2 Hi))). reflexivity.
  - destruct (38 <? _)%nat; [rewrite E; reflexivity|]. destruct E as (y & E & Hy & Er & _). rewrite E.
    assert (Hny : (0 < x_nwalks y)%nat).
    { rewrite <- (records_length y Hy), Er, app_length, (records_length x Hx). destruct Hi as ((H & _) & _). lia. }
    assert (El2 : last (records_of y) zero_walk = last (records_of x) zero_walk).
    { rewrite Er. assert (Hne : records_of x <> []).
      { intro E0. assert (L := records_length x Hx). rewrite E0 in L. destruct Hi as ((H & _) & _). cbn in L. lia. }
      clear - Hne. induction pre as [|w pre IH]; [reflexivity|]. cbn [app].
      destruct (pre ++ records_of x) eqn:E; [apply app_eq_nil in E as [_ E]; contradiction|]. exact IH. }
    rewrite (complete_last y Hy Hny), El2.
    replace (wk_final (last (records_of x) zero_walk) && wk_host (last (records_of x) zero_walk)) with false
      by (symmetry; apply andb_false_iff; exact (proj1 (proj2 Hi))).
    unfold xlate_fixup. rewrite Hm. cbn [negb andb].
    destruct (nth_error (x_walks y) (x_nwalks y)) as [w|] eqn:Ew; [|reflexivity].
    assert (Hc : forall z, x_nwalks z = S (x_nwalks y) ->
      x_walks z = firstn (x_nwalks y) (x_walks y) ++ mk_walk true (wk_exception w) true true (wk_level w) r
                  :: skipn (S (x_nwalks y)) (x_walks y) -> xlate_complete z = true).
    { intros z E1 E2. unfold xlate_complete. rewrite E1, E2.
      assert (L := records_length y Hy). unfold records_of in L.
      rewrite app_nth2 by lia. rewrite L, Nat.sub_diag. reflexivity. }
    rewrite Hc by reflexivity. reflexivity.
Qed.
