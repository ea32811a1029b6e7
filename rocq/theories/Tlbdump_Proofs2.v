(** Proofs about the report of the software TLB: the rows and the totals. *)
Require Import NArith ZArith List Bool Permutation Lia Arith.
Require Import ZifyBool ZifyN ZifyNat.
Require Import Verif.Word Verif.Bb_Spec Verif.Tlb_Model Verif.Tlb_Spec Verif.Tlb_Proofs.
Require Import Verif.Tlbdump_Model Verif.Tlbdump_Spec Verif.Tlbdump_Proofs.
Import ListNotations.
Local Open Scope N_scope.

Lemma account_snoc : forall h o b sz, account (h ++ [o]) b sz = note b sz (account h b sz) o.
Proof. intros. unfold account. now rewrite fold_left_app. Qed.

Lemma account_le : forall h b sz r m n, account h b sz = Some (r, m, n) ->
  m <= n /\ n <= N.of_nat (length h).
Proof.
  induction h as [|o h IH] using rev_ind; intros b sz r m n; [discriminate|].
  rewrite account_snoc, app_length. cbn [length]. unfold note.
  destruct o as [a f r' s|ea f].
  - destruct (N.odd f && (s =? sz) && (a / s * s =? b)).
    + destruct (account h b sz) as [[[r0 m0] n0]|] eqn:E.
      * specialize (IH b sz r0 m0 n0 E). destruct (r0 =? r' / s * s); intros [= <- <- <-]; lia.
      * intros [= <- <- <-]; lia.
    + intros H. specialize (IH b sz r m n H). lia.
  - destruct (N.odd f && (b <=? ea) && (ea <? b + sz)).
    + destruct (account h b sz) as [[[r0 m0] n0]|] eqn:E; [|discriminate].
      specialize (IH b sz r0 m0 n0 E). intros [= <- <- <-]; lia.
    + intros H. specialize (IH b sz r m n H). lia.
Qed.

(** The entries are the rows. *)
Definition ledger (h : list op) (l : list tlbe) : Prop :=
  (forall t, In t l -> account h (t_ea t) (t_size t) = Some (t_ra t, t_miss t, t_hit t)) /\
  (forall b sz x, account h b sz = Some x -> exists t, In t l /\ t_ea t = b /\ t_size t = sz).

Lemma ledger_perm : forall h l l', Permutation l l' -> ledger h l -> ledger h l'.
Proof.
  intros h l l' P [H1 H2]. split.
  - intros t Ht. apply H1. eapply Permutation_in; [symmetry; exact P|exact Ht].
  - intros b sz x E. destruct (H2 b sz x E) as (t & Ht & E'). exists t. split; [|exact E'].
    eapply Permutation_in; eassumption.
Qed.

Lemma bump : forall n, n < 2 ^ 63 -> add64 n 1 = n + 1.
Proof. intros n H. unfold add64, w64. apply N.mod_small. lia. Qed.

Lemma mid_disj : forall l1 t l2, wf (l1 ++ t :: l2) ->
  forall t', In t' (l1 ++ l2) -> disj (pg t') (pg t).
Proof.
  intros l1 t l2 W t' Ht'.
  assert (HO : ordered disj (map pg (t :: l1 ++ l2))).
  { apply (ordered_perm_sym _ _ (map pg (l1 ++ t :: l2))).
    - intros a b [H|H]; [now right|now left].
    - apply Permutation_map. symmetry. apply Permutation_middle.
    - apply before_disj, W. }
  cbn [map ordered] in HO. destruct HO as [HO _]. rewrite Forall_forall in HO.
  destruct (HO (pg t')) as [H|H]; [now apply in_map|now right|now left].
Qed.

Lemma wf_in : forall l t, wf l -> In t l -> t_valid t = true /\ p_good (pg t).
Proof. intros l t [W _] H. rewrite Forall_forall in W. now apply W. Qed.

Lemma ledger_get : forall h l l' ea, wf l -> ledger h l -> N.of_nat (length h) < 2 ^ 63 ->
  (exists l1 t l2, l = l1 ++ t :: l2 /\ p_in ea (pg t) /\ l' = l1 ++ hit t :: l2) \/
  ((forall t, In t l -> ~ p_in ea (pg t)) /\ l' = l) ->
  ledger (h ++ [OGet ea 1]) l'.
Proof.
  intros h l l' ea W [L1 L2] Hlen [(l1 & t & l2 & El & Hin & ->)|[Hno ->]].
  - assert (Hd := mid_disj l1 t l2). rewrite <- El in Hd. specialize (Hd W).
    split.
    + intros t' Ht'. rewrite account_snoc. unfold note. change (N.odd 1) with true. cbn [andb].
      apply in_app_iff in Ht'.
      assert (C : t' = hit t \/ In t' (l1 ++ l2)).
      { rewrite in_app_iff. destruct Ht' as [Ht'|[Ht'|Ht']]; [auto|auto|auto]. }
      destruct C as [->|C].
      * cbn [hit t_ea t_size t_ra t_miss t_hit].
        assert (Ht : In t l) by (rewrite El; apply in_app_iff; right; now left).
        rewrite (L1 t Ht). unfold p_in, p_ea, p_size in Hin. cbn in Hin.
        replace ((t_ea t <=? ea) && (ea <? t_ea t + t_size t)) with true by lia.
        rewrite bump; [reflexivity|]. apply L1, account_le in Ht. lia.
      * assert (Hl : In t' l).
        { rewrite El. apply in_app_iff in C. apply in_app_iff. destruct C; [now left|right; now right]. }
        rewrite (L1 t' Hl). specialize (Hd t' C). unfold disj, p_in, p_ea, p_size in *. cbn in *.
        replace ((t_ea t' <=? ea) && (ea <? t_ea t' + t_size t')) with false by lia. reflexivity.
    + intros b sz x E. rewrite account_snoc in E.
      assert (E' : exists y, account h b sz = Some y).
      { unfold note in E. destruct (_ && _ && _); [|now exists x].
        destruct (account h b sz) as [y|]; [now exists y|discriminate]. }
      destruct E' as [y E']. destruct (L2 b sz y E') as (t' & Ht' & Eb & Es).
      rewrite El in Ht'. apply in_app_iff in Ht' as [Ht'|[<-|Ht']].
      * exists t'. split; [apply in_app_iff; now left|now split].
      * exists (hit t). split; [apply in_app_iff; right; now left|now split].
      * exists t'. split; [apply in_app_iff; right; now right|now split].
  - split.
    + intros t' Ht'. rewrite account_snoc. unfold note. change (N.odd 1) with true. cbn [andb].
      rewrite (L1 t' Ht'). specialize (Hno t' Ht'). unfold p_in, p_ea, p_size in Hno. cbn in Hno.
      replace ((t_ea t' <=? ea) && (ea <? t_ea t' + t_size t')) with false by lia. reflexivity.
    + intros b sz x E. rewrite account_snoc in E.
      assert (E' : exists y, account h b sz = Some y).
      { unfold note in E. destruct (_ && _ && _); [|now exists x].
        destruct (account h b sz) as [y|]; [now exists y|discriminate]. }
      destruct E' as [y E']. exact (L2 b sz y E').
Qed.

(** The number a set adds to the replaced translations. *)
Definition replaces (h : list op) (o : op) : N :=
  match o with
  | OSet a f r s =>
      match account h (a / s * s) s with
      | Some (r0, _, _) => if N.odd f && negb (r0 =? r / s * s) then 1 else 0
      | None => 0
      end
  | OGet _ _ => 0
  end.

Lemma ledger_set : forall h l l' ea ra sz ch, wf l -> ledger h l -> N.of_nat (length h) < 2 ^ 63 ->
  psize sz -> no_mixed_overlap (h ++ [OSet ea 1 ra sz]) ->
  (forall t, In t l -> is_set h (t_ea t) (t_size t)) ->
  let tn := mk_tlbe (ea / sz * sz) (ra / sz * sz) sz 0 0 true in
  (exists l1 t l2, l = l1 ++ t :: l2 /\ p_in ea (pg t) /\ pg t = pg tn /\
     l' = l1 ++ again t :: l2 /\ ch = 0) \/
  (exists l1 t l2, l = l1 ++ t :: l2 /\ p_in ea (pg t) /\ pg t <> pg tn /\
     Permutation l' (l1 ++ tn :: l2) /\ ch = 1) \/
  ((forall t, In t l -> ~ p_in ea (pg t)) /\ Permutation l' (tn :: l) /\ ch = 0) ->
  ledger (h ++ [OSet ea 1 ra sz]) l' /\ ch = replaces h (OSet ea 1 ra sz).
Proof.
  intros h l l' ea ra sz ch W [L1 L2] Hlen Hsz HC HI tn. assert (Hpos := psize_pos _ Hsz).
  assert (Hx := page_in sz ea ra Hpos).
  (* the entry holding the address is that of the page *)
  assert (Same : forall t, In t l -> p_in ea (pg t) -> t_ea t = ea / sz * sz /\ t_size t = sz).
  { intros t Ht Hin.
    destruct (compat_cases h ea ra sz (pg t) Hsz HC (proj1 (proj2 (wf_in l t W Ht))) (HI t Ht))
      as [[E [E'|E']]|E'].
    - now split.
    - exfalso. unfold disj, p_in in *. lia.
    - exfalso. unfold disj, p_in in *. lia. }
  assert (Other : forall t', In t' l -> ~ p_in ea (pg t') ->
    account (h ++ [OSet ea 1 ra sz]) (t_ea t') (t_size t') = Some (t_ra t', t_miss t', t_hit t')).
  { intros t' Ht' Hn. rewrite account_snoc. unfold note. change (N.odd 1) with true. cbn [andb].
    replace ((sz =? t_size t') && (ea / sz * sz =? t_ea t')) with false; [now apply L1|].
    symmetry. apply not_true_is_false. intro E. apply Hn.
    unfold p_in, p_ea, p_size in *. cbn [pg fst snd] in *. lia. }
  assert (New : forall b s x, account (h ++ [OSet ea 1 ra sz]) b s = Some x ->
    (b = ea / sz * sz /\ s = sz) \/ exists t, In t l /\ t_ea t = b /\ t_size t = s).
  { intros b s x E. rewrite account_snoc in E. unfold note in E. change (N.odd 1) with true in E.
    cbn [andb] in E. destruct ((sz =? s) && (ea / sz * sz =? b)) eqn:Eb.
    - left. split; lia.
    - right. exact (L2 b s x E). }
  unfold replaces. change (N.odd 1) with true. cbn [andb].
  intros [(l1 & t & l2 & El & Hin & Ep & -> & ->)|[(l1 & t & l2 & El & Hin & Ep & P & ->)|(Hno & P & ->)]].
  - assert (Hd := mid_disj l1 t l2). rewrite <- El in Hd. specialize (Hd W).
    assert (Ht : In t l) by (rewrite El; apply in_app_iff; right; now left).
    injection Ep as Ea Er Es. assert (At := L1 t Ht). assert (Le := account_le _ _ _ _ _ _ At).
    split; [split|].
    + intros t' Ht'.
      assert (C : t' = again t \/ In t' (l1 ++ l2)).
      { apply in_app_iff in Ht'. rewrite in_app_iff. destruct Ht' as [Ht'|[Ht'|Ht']]; auto. }
      destruct C as [->|C].
      * rewrite account_snoc. cbn [again t_ea t_size t_ra t_miss t_hit]. rewrite At. unfold note.
        change (N.odd 1) with true. cbn [andb]. rewrite Ea, Es, Er, !N.eqb_refl. cbn [andb].
        rewrite !bump by lia. reflexivity.
      * apply Other.
        -- rewrite El. apply in_app_iff in C. apply in_app_iff. destruct C; [now left|right; now right].
        -- specialize (Hd t' C). unfold disj, p_in in *. lia.
    + intros b s x E. destruct (New b s x E) as [[-> ->]|(t' & Ht' & E1 & E2)].
      * exists (again t). split; [apply in_app_iff; right; now left|]. now split.
      * rewrite El in Ht'. apply in_app_iff in Ht' as [Ht'|[<-|Ht']].
        -- exists t'. split; [apply in_app_iff; now left|now split].
        -- exists (again t). split; [apply in_app_iff; right; now left|now split].
        -- exists t'. split; [apply in_app_iff; right; now right|now split].
    + rewrite Ea, Es, Er in At. rewrite At, N.eqb_refl. reflexivity.
  - assert (Hd := mid_disj l1 t l2). rewrite <- El in Hd. specialize (Hd W).
    assert (Ht : In t l) by (rewrite El; apply in_app_iff; right; now left).
    destruct (Same t Ht Hin) as [Ea Es]. assert (At := L1 t Ht).
    assert (Er : t_ra t <> ra / sz * sz).
    { intro Er. apply Ep. unfold pg, tn. cbn. congruence. }
    split.
    + eapply ledger_perm; [symmetry; exact P|]. split.
      * intros t' Ht'.
        assert (C : t' = tn \/ In t' (l1 ++ l2)).
        { apply in_app_iff in Ht'. rewrite in_app_iff. destruct Ht' as [Ht'|[Ht'|Ht']]; auto. }
        destruct C as [->|C].
        -- rewrite account_snoc. cbn [tn t_ea t_size t_ra t_miss t_hit]. rewrite <- Ea, <- Es, At, Es.
           unfold note. change (N.odd 1) with true. cbn [andb]. rewrite Ea, !N.eqb_refl. cbn [andb].
           replace (t_ra t =? ra / sz * sz) with false by lia. reflexivity.
        -- apply Other.
           ++ rewrite El. apply in_app_iff in C. apply in_app_iff. destruct C; [now left|right; now right].
           ++ specialize (Hd t' C). unfold disj, p_in in *. lia.
      * intros b s x E. destruct (New b s x E) as [[-> ->]|(t' & Ht' & E1 & E2)].
        -- exists tn. split; [apply in_app_iff; right; now left|]. now split.
        -- rewrite El in Ht'. apply in_app_iff in Ht' as [Ht'|[<-|Ht']].
           ++ exists t'. split; [apply in_app_iff; now left|now split].
           ++ exists tn. split; [apply in_app_iff; right; now left|].
              cbn [tn t_ea t_size]. split; congruence.
           ++ exists t'. split; [apply in_app_iff; right; now right|now split].
    + rewrite Ea, Es in At. rewrite At. replace (t_ra t =? ra / sz * sz) with false by lia. reflexivity.
  - assert (N0 : account h (ea / sz * sz) sz = None).
    { destruct (account h (ea / sz * sz) sz) as [x|] eqn:E; [|reflexivity]. exfalso.
      destruct (L2 _ _ _ E) as (t & Ht & E1 & E2). apply (Hno t Ht).
      unfold p_in, p_ea, p_size in *. cbn [pg fst snd] in *. lia. }
    split.
    + eapply ledger_perm; [symmetry; exact P|]. split.
      * intros t' [<-|Ht']; [|apply Other; auto].
        rewrite account_snoc. cbn [tn t_ea t_size t_ra t_miss t_hit]. rewrite N0.
        unfold note. change (N.odd 1) with true. cbn [andb]. rewrite !N.eqb_refl. reflexivity.
      * intros b s x E. destruct (New b s x E) as [[-> ->]|(t' & Ht' & E1 & E2)].
        -- exists tn. split; [now left|]. now split.
        -- exists t'. split; [now right|now split].
    + now rewrite N0.
Qed.

(** Calls with relocation off change nothing. *)
Lemma account_off : forall h o b sz,
  match o with OSet _ f _ _ => N.odd f | OGet _ f => N.odd f end = false ->
  account (h ++ [o]) b sz = account h b sz.
Proof. intros h o b sz E. rewrite account_snoc. unfold note. destruct o; rewrite E; reflexivity. Qed.
