(** Proofs about the report of the software TLB. *)
Require Import NArith ZArith List Bool Permutation Lia Arith.
Require Import ZifyBool ZifyN ZifyNat.
Require Import Verif.Word Verif.Bb_Spec Verif.Tlb_Model Verif.Tlb_Spec Verif.Tlb_Proofs.
Require Import Verif.Tlbdump_Model Verif.Tlbdump_Spec.
Import ListNotations.
Local Open Scope N_scope.

Definition entries (s : tlbs) : list tlbe := firstn (N.to_nat (tlb_next s)) (arr s).

Lemma entries_shape : forall s l k, shape s l k -> entries s = l.
Proof.
  intros s l k (Ha & Hn & _). unfold entries. rewrite Ha, Hn, Nat2N.id.
  now rewrite firstn_app, firstn_all, Nat.sub_diag, app_nil_r.
Qed.

Lemma set_arr_arr : forall s l, tlb_arr s <> None -> arr (set_arr s l) = l.
Proof. intros s l H. unfold arr, set_arr. cbn. destruct (tlb_arr s); [reflexivity|congruence]. Qed.

Lemma shape_some : forall s l k i t, shape s l k -> nth_error l i = Some t -> tlb_arr s <> None.
Proof.
  intros s l k i t (_ & _ & S3) Et Hn. destruct (S3 Hn) as [-> _]. destruct i; discriminate.
Qed.

(** ** Effects of the two functions on the entries *)
Definition counters (s : tlbs) : N * N * N := (tlb_translations s, tlb_no_translation s, tlb_changes s).

Lemma get_effect : forall s l k ea r s', wf l -> shape s l k ->
  tlb_ra_get s ea 1 = TOk (r, s') ->
  (exists l1 t l2, l = l1 ++ t :: l2 /\ p_in ea (pg t) /\ entries s' = l1 ++ hit t :: l2 /\
     r <> None /\
     counters s' = (tlb_translations s + 1, tlb_no_translation s, tlb_changes s)) \/
  ((forall t, In t l -> ~ p_in ea (pg t)) /\ entries s' = l /\ r = None /\
     counters s' = (tlb_translations s + 1, tlb_no_translation s + 1, tlb_changes s)).
Proof.
  intros s l k ea r s' W S. unfold tlb_ra_get.
  change (N.land 1 TLB_FLAGS_RELOC =? 0) with false. cbv iota. set (s1 := mk_tlbs _ _ _ _ _).
  assert (S1 : shape s1 l k) by exact S.
  destruct (get_index_spec s1 l k ea 0 W S1) as (x & s2 & Ex & Hx); [lia|].
  rewrite Ex. cbn [tbind]. destruct x as [i|].
  - destruct Hx as [_ (t & Et & Hin & E2)].
    destruct (get_entry (arr s2) (Z.of_nat i)) as [t'|]; cbn [tbind]; [|discriminate].
    destruct (tlb_translate ea 1 t') as [ra|]; cbn [tbind]; [|discriminate].
    intros [= <- <-]. left.
    destruct (nth_replace l i t (hit t) Et) as (l1 & l2 & El & El').
    exists l1, t, l2. split; [exact El|]. split; [exact Hin|].
    assert (Hns := shape_some s1 l k i t S1 Et).
    split; [|split; [discriminate|rewrite E2; reflexivity]].
    rewrite E2. unfold entries. rewrite set_arr_arr by exact Hns. cbn [set_arr tlb_next].
    rewrite (proj1 (proj2 S1)), Nat2N.id, El'. rewrite El at 1. rewrite !app_length. cbn [length].
    rewrite firstn_app. rewrite firstn_all2 by (rewrite app_length; cbn; lia).
    rewrite app_length. cbn [length]. rewrite Nat.sub_diag. cbn [firstn]. now rewrite app_nil_r.
  - destruct Hx as [-> Hno]. intros [= <- <-]. right.
    split; [|split; [|split; reflexivity]].
    + intros t Ht. apply In_nth_error in Ht as [i Hi]. apply (Hno i t); [lia|exact Hi].
    + now apply (entries_shape s1 l k).
Qed.

Lemma allocate_effect : forall s s', tlb_allocate s = TOk s' ->
  (exists k', arr s' = arr s ++ repeat zero_tlbe k') /\ tlb_next s' = tlb_next s /\
  counters s' = counters s.
Proof.
  intros s s'. unfold tlb_allocate. destruct (tlb_arr s) as [l|] eqn:E.
  - destruct (tlb_size s * 2 <? 2147483648); [|discriminate].
    destruct (tlb_validate _); cbn [tbind]; [|discriminate]. intros [= <-].
    split; [|split; reflexivity]. exists (length l). unfold arr. cbn. now rewrite E.
  - intros [= <-]. split; [|split; reflexivity]. exists 1%nat. unfold arr. now rewrite E.
Qed.

Lemma replace_mid : forall (l1 l2 : list tlbe) x y, replace (l1 ++ x :: l2) (length l1) y = l1 ++ y :: l2.
Proof.
  intros. unfold replace. rewrite firstn_app, firstn_all, Nat.sub_diag. cbn [firstn].
  rewrite app_nil_r. f_equal. f_equal.
  replace (S (length l1)) with (length (l1 ++ [x])) by (rewrite app_length; cbn; lia).
  replace (l1 ++ x :: l2) with ((l1 ++ [x]) ++ l2) by now rewrite <- app_assoc.
  now rewrite skipn_app, skipn_all, Nat.sub_diag.
Qed.

Lemma nth_split_at : forall (l : list tlbe) i t, nth_error l i = Some t ->
  exists l1 l2, l = l1 ++ t :: l2 /\ length l1 = i.
Proof. intros. now apply nth_error_split. Qed.

(** The tail of tlb_ra_set, when the entry differs. *)
Lemma sorted_entries : forall qs a n x, sorter qs -> (n <= length a)%nat ->
  Permutation (firstn n (qs tlb_compare_ea (firstn n a) ++ x)) (firstn n a).
Proof.
  intros qs a n x HS Hn.
  destruct (HS tlb_compare_ea (firstn n a) compare_ea_ok) as [P _].
  assert (L := Permutation_length P). rewrite firstn_length, Nat.min_l in L by exact Hn.
  rewrite firstn_app, firstn_all2, <- L, Nat.sub_diag by lia. cbn [firstn].
  rewrite app_nil_r. now symmetry.
Qed.

Definition again (t : tlbe) : tlbe :=
  mk_tlbe (t_ea t) (t_ra t) (t_size t) (add64 (t_hit t) 1) (add64 (t_miss t) 1) (t_valid t).

Lemma set_effect : forall qs s l k ea ra sz s', sorter qs -> wf l -> shape s l k ->
  psize sz -> ea < 2 ^ 64 -> ra < 2 ^ 64 ->
  tlb_ra_set qs s ea 1 ra sz = TOk s' ->
  let tn := mk_tlbe (ea / sz * sz) (ra / sz * sz) sz 0 0 true in
  (exists l1 t l2, l = l1 ++ t :: l2 /\ p_in ea (pg t) /\ pg t = pg tn /\
     entries s' = l1 ++ again t :: l2 /\ counters s' = counters s) \/
  (exists l1 t l2, l = l1 ++ t :: l2 /\ p_in ea (pg t) /\ pg t <> pg tn /\
     Permutation (entries s') (l1 ++ tn :: l2) /\
     counters s' = (tlb_translations s, tlb_no_translation s, tlb_changes s + 1)) \/
  ((forall t, In t l -> ~ p_in ea (pg t)) /\ Permutation (entries s') (tn :: l) /\
     counters s' = counters s).
Proof.
  intros qs s l k ea ra sz s' HS W S Hsz He Hr. unfold tlb_ra_set.
  change (N.land 1 TLB_FLAGS_RELOC =? 0) with false. cbv iota.
  rewrite (proj2 (pagesize_ok_iff sz) Hsz). cbn [tassert tbind].
  change (flags_ok 1) with true. cbn [tassert tbind].
  rewrite (mask_rpn_land sz ea Hsz He), (mask_rpn_land sz ra Hsz Hr).
  set (tn := mk_tlbe _ _ _ _ _ _).
  destruct (get_index_spec s l k ea 0 W S) as (x & s2 & Ex & Hx); [lia|].
  rewrite Ex. cbn [tbind]. clear Ex. destruct x as [i|].
  - destruct Hx as [_ (t & Et & Hin & E2)]. cbn [tbind].
    assert (Hns := shape_some s l k i t S Et).
    destruct (nth_split_at l i t Et) as (l1 & l2 & El & Hi).
    assert (Er : forall y, replace l i y = l1 ++ y :: l2).
    { intros y. rewrite El, <- Hi. apply replace_mid. }
    assert (EA : arr s2 = l1 ++ hit t :: l2 ++ repeat zero_tlbe k).
    { rewrite E2, set_arr_arr, Er by exact Hns. rewrite <- app_assoc. reflexivity. }
    assert (Nx : tlb_next s2 = N.of_nat (length l)) by (rewrite E2; cbn; apply S).
    assert (Ns2 : tlb_arr s2 <> None).
    { rewrite E2. unfold set_arr. cbn. destruct (tlb_arr s); congruence. }
    assert (Cs : counters s2 = counters s) by (rewrite E2; reflexivity).
    assert (Hv : t_valid t = true).
    { destruct W as [W _]. rewrite Forall_forall in W. apply W. eapply nth_error_In; eassumption. }
    assert (EG : get_entry (arr s2) (Z.of_nat i) = TOk (hit t)).
    { rewrite EA. replace (l1 ++ hit t :: l2 ++ repeat zero_tlbe k)
        with ((l1 ++ [hit t]) ++ l2 ++ repeat zero_tlbe k) by now rewrite <- app_assoc.
      apply get_entry_app; [lia|]. rewrite Nat2Z.id, nth_error_app2 by lia.
      rewrite Hi, Nat.sub_diag. reflexivity. }
    rewrite EG. cbn [tbind]. cbv zeta.
    assert (Er2 : forall y, replace (arr s2) i y = l1 ++ y :: l2 ++ repeat zero_tlbe k).
    { intros y. rewrite EA, <- Hi. apply replace_mid. }
    rewrite !Er2.
    assert (F : forall y (z : list tlbe), firstn (length l) (l1 ++ y :: l2 ++ z) = l1 ++ y :: l2).
    { intros y z. replace (l1 ++ y :: l2 ++ z) with ((l1 ++ y :: l2) ++ z) by now rewrite <- app_assoc.
      replace (length l) with (length (l1 ++ y :: l2)) by (rewrite El, !app_length; reflexivity).
      now rewrite firstn_app, firstn_all, Nat.sub_diag, app_nil_r. }
    assert (Eq : tlb_equal tn (hit t) = true <-> pg t = pg tn).
    { unfold tlb_equal, hit, pg. cbn [tn t_ea t_ra t_size t_valid]. rewrite Hv. cbn [Bool.eqb].
      split.
      - intro H. f_equal; [f_equal|]; lia.
      - intro H. injection H as H1 H2 H3. lia. }
    destruct (tlb_equal tn (hit t)) eqn:Eqb.
    + intros [= <-]. left. exists l1, t, l2. split; [exact El|]. split; [exact Hin|].
      split; [now apply Eq|]. split; [|rewrite <- Cs; reflexivity].
      unfold entries. rewrite set_arr_arr by exact Ns2. cbn [set_arr tlb_next].
      rewrite Nx, Nat2N.id. rewrite F. reflexivity.
    + destruct (tlb_validate _); cbn [tbind]; [|discriminate]. intros [= <-]. right. left.
      exists l1, t, l2. split; [exact El|]. split; [exact Hin|].
      split; [intro H; apply Eq in H; discriminate H|].
      rewrite Nx, Nat2N.id. split.
      * unfold entries. cbn [tlb_next]. rewrite Nat2N.id. unfold arr at 1. cbn [tlb_arr].
        destruct (tlb_arr s2); [|congruence].
        rewrite sorted_entries, F; [reflexivity|exact HS|].
        rewrite El, !app_length. cbn [length]. rewrite app_length. lia.
      * unfold counters in *. cbn [tlb_translations tlb_no_translation tlb_changes hit t_valid].
        rewrite Hv. injection Cs as -> -> ->. reflexivity.
  - destruct Hx as [-> Hno].
    destruct (if tlb_size s =? tlb_next s then tlb_allocate s else TOk s) as [s2|] eqn:EA;
      cbn [tbind]; [|discriminate].
    assert (HA : (exists k', arr s2 = l ++ repeat zero_tlbe k') /\ tlb_next s2 = tlb_next s /\
                 counters s2 = counters s).
    { destruct (tlb_size s =? tlb_next s).
      - apply allocate_effect in EA as ((k' & E1) & E2 & E3). split; [|now split].
        exists (k + k')%nat. rewrite E1, (proj1 S), <- app_assoc, <- repeat_app. reflexivity.
      - injection EA as <-. split; [exists k; apply S|]. now split. }
    destruct HA as ((k' & E1) & E2 & E3).
    assert (Nx : tlb_next s = N.of_nat (length l)) by apply S.
    rewrite Nx, Nat2N.id. set (s3 := mk_tlbs _ _ _ _ _).
    assert (A3 : arr s3 = l ++ repeat zero_tlbe k') by exact E1.
    destruct (get_entry (arr s3) (Z.of_nat (length l))) as [t|] eqn:EG; cbn [tbind]; [|discriminate].
    unfold get_entry in EG. replace (Z.of_nat (length l) <? 0)%Z with false in EG by lia.
    rewrite Nat2Z.id, A3, nth_error_app2, Nat.sub_diag in EG by lia.
    destruct k' as [|k']; [discriminate EG|]. injection EG as <-.
    replace (tlb_equal tn zero_tlbe) with false
      by (unfold tlb_equal; cbn; now rewrite andb_false_r).
    cbv zeta. rewrite A3. cbn [repeat]. rewrite replace_mid.
    destruct (tlb_validate _); cbn [tbind]; [|discriminate]. intros [= <-]. right. right.
    split; [|split].
    + intros t Ht. apply In_nth_error in Ht as [i Hi]. apply (Hno i t); [lia|exact Hi].
    + unfold entries, s3. cbn [tlb_next]. rewrite E2, Nx. unfold arr at 1. cbn [tlb_arr].
      assert (Ns : tlb_arr s2 <> None).
      { intro Hn. unfold arr in E1. rewrite Hn in E1. destruct l; discriminate E1. }
      destruct (tlb_arr s2); [|congruence].
      rewrite sorted_entries; [|exact HS|].
      * replace (N.to_nat (N.of_nat (length l) + 1)) with (length (l ++ [tn]))
          by (rewrite app_length; cbn; lia).
        replace (l ++ tn :: repeat zero_tlbe k') with ((l ++ [tn]) ++ repeat zero_tlbe k')
          by now rewrite <- app_assoc.
        rewrite firstn_app, firstn_all, Nat.sub_diag. cbn [firstn]. rewrite app_nil_r.
        symmetry. apply Permutation_cons_append.
      * rewrite app_length. cbn [length]. lia.
    + exact E3.
Qed.
