(** Proofs about htm/tlb.c. *)
Require Import NArith ZArith List Bool Permutation Lia Arith.
Require Import ZifyBool ZifyN ZifyNat.
Require Import Verif.Word Verif.Bb_Spec Verif.Bb_Proofs2 Verif.Tlb_Model Verif.Tlb_Spec.
Import ListNotations.
Local Open Scope N_scope.

(** ** Bit arithmetic *)
Definition psize (s : N) : Prop := s = 4096 \/ s = 65536 \/ s = 16777216.

Lemma psize_pow : forall s, psize s -> exists k, s = 2 ^ k /\ 12 <= k <= 24.
Proof.
  intros s [->|[->| ->]]; [exists 12|exists 16|exists 24]; (split; [reflexivity|lia]).
Qed.
Lemma pagesize_ok_iff : forall s, pagesize_ok s = true <-> psize s.
Proof. intros. unfold pagesize_ok, psize. lia. Qed.

Lemma mask_offset_land : forall s x, psize s -> N.land x (mask_offset s) = x mod s.
Proof.
  intros s x H.
  assert (E : mask_offset s = N.pred s).
  { destruct H as [->|[->| ->]]; reflexivity. }
  destruct (psize_pow s H) as (k & -> & Hk). rewrite E.
  rewrite <- N.ones_equiv. apply N.land_ones.
Qed.
Lemma mask_rpn_land : forall s x, psize s -> x < 2 ^ 64 -> N.land x (mask_rpn s) = x / s * s.
Proof.
  intros s x H Hx.
  assert (E : mask_rpn s = N.shiftl (N.ones (64 - N.log2 s)) (N.log2 s)).
  { destruct H as [->|[->| ->]]; vm_compute; reflexivity. }
  destruct (psize_pow s H) as (k & -> & Hk).
  rewrite E, N.log2_pow2 by lia. rewrite land_field.
  rewrite N.mod_small; [reflexivity|].
  apply N.div_lt_upper_bound; [apply N.pow_nonzero; lia|].
  rewrite <- N.pow_add_r. replace (k + (64 - k)) with 64 by lia. exact Hx.
Qed.
Lemma flags_odd : forall f, N.land f TLB_FLAGS_RELOC =? 0 = negb (N.odd f).
Proof.
  intros f. change TLB_FLAGS_RELOC with (N.ones 1). rewrite N.land_ones.
  change (2 ^ 1) with 2. rewrite <- N.bit0_mod, N.bit0_odd. now destruct (N.odd f).
Qed.
Lemma low62 : forall ea, N.land ea 0x3fffffffffffffff = ea mod 2 ^ 62.
Proof. intros. change 0x3fffffffffffffff with (N.ones 62). apply N.land_ones. Qed.

(** ** Pages *)
Definition pg (t : tlbe) : N * N * N := (t_ea t, t_ra t, t_size t).
Definition p_ea (p : N * N * N) : N := fst (fst p).
Definition p_ra (p : N * N * N) : N := snd (fst p).
Definition p_size (p : N * N * N) : N := snd p.
Definition p_good (p : N * N * N) : Prop :=
  psize (p_size p) /\ p_ea p mod p_size p = 0 /\ (p_ra p mod p_size p = 0 /\ p_ra p < 2 ^ 64) /\
  p_ea p + p_size p <= 2 ^ 64.
Definition p_in (ea : N) (p : N * N * N) : Prop := p_ea p <= ea < p_ea p + p_size p.
Definition disj (p q : N * N * N) : Prop :=
  p_ea p + p_size p <= p_ea q \/ p_ea q + p_size q <= p_ea p.
Definition before (p q : N * N * N) : Prop := p_ea p + p_size p <= p_ea q.

Lemma entry_ok_good : forall t, t_valid t = true -> p_good (pg t) -> entry_ok t = true.
Proof.
  intros t V (H1 & H2 & (H3 & _) & _). unfold entry_ok. cbn in *.
  rewrite V, (proj2 (pagesize_ok_iff _) H1), !mask_offset_land, H2, H3 by exact H1. reflexivity.
Qed.

Lemma compare_good : forall ea t, t_valid t = true -> p_good (pg t) ->
  tlb_compare ea t = TOk (if ea <? t_ea t then (-1)%Z
                          else if t_ea t + t_size t <=? ea then 1%Z else 0%Z).
Proof.
  intros ea t V G. unfold tlb_compare. rewrite entry_ok_good by assumption. cbn [tassert tbind].
  destruct G as (H1 & _ & _ & H4). cbn in *.
  assert (Hs : 0 < t_size t) by (destruct H1 as [E|[E|E]]; unfold p_size in E; cbn in E; lia).
  assert (E : sub64 (add64 (t_ea t) (t_size t)) 1 = t_ea t + t_size t - 1).
  { unfold p_ea, p_size in H4. cbn in H4. unfold sub64, add64. change w64 with (2 ^ 64).
    destruct (N.eq_dec (t_ea t + t_size t) (2 ^ 64)) as [E|E].
    - rewrite E. reflexivity.
    - rewrite (N.mod_small (t_ea t + t_size t)) by lia. change (1 mod 2 ^ 64) with 1.
      symmetry. apply N.mod_unique with 1; lia. }
  rewrite E. f_equal. destruct (ea <? t_ea t) eqn:E1; [reflexivity|].
  destruct (t_ea t + t_size t - 1 <? ea) eqn:E2; destruct (t_ea t + t_size t <=? ea) eqn:E3;
    try reflexivity; lia.
Qed.

(** ** Well-formed tables *)
Definition wf (l : list tlbe) : Prop :=
  Forall (fun t => t_valid t = true /\ p_good (pg t)) l /\ ordered before (map pg l).

Lemma ordered_nth : forall A (R : A -> A -> Prop) l i j a b, ordered R l -> (i < j)%nat ->
  nth_error l i = Some a -> nth_error l j = Some b -> R a b.
Proof.
  induction l as [|x l IH]; intros i j a b HO Hij Hi Hj.
  - destruct i; discriminate.
  - destruct HO as [H1 H2]. destruct j as [|j]; [lia|]. cbn in Hj. destruct i as [|i].
    + injection Hi as <-. rewrite Forall_forall in H1. apply H1. eapply nth_error_In; eassumption.
    + cbn in Hi. eapply (IH i j); try eassumption. lia.
Qed.

Lemma get_entry_app : forall l z i t, (0 <= i)%Z -> nth_error l (Z.to_nat i) = Some t ->
  get_entry (l ++ z) i = TOk t.
Proof.
  intros l z i t Hi E. unfold get_entry. replace (Z.ltb i 0) with false by lia.
  rewrite nth_error_app1; [now rewrite E|]. apply nth_error_Some. congruence.
Qed.

Lemma search_spec : forall ea l z fuel first last, wf l ->
  (0 <= first)%Z -> (last < Z.of_nat (length l))%Z -> (last - first + 1 <= Z.of_nat fuel)%Z ->
  exists r, search fuel (l ++ z) ea first last = TOk r /\
    match r with
    | Some i => (first <= Z.of_nat i <= last)%Z /\
                exists t, nth_error l i = Some t /\ p_in ea (pg t)
    | None => forall i t, (first <= Z.of_nat i <= last)%Z -> nth_error l i = Some t ->
                          ~ p_in ea (pg t)
    end.
Proof.
  intros ea l z. induction fuel as [|fuel IH]; intros first last W Hf Hl Hfu.
  - exists None. cbn [search]. replace (Z.leb first last) with false by lia.
    split; [reflexivity|]. intros i t Hi. lia.
  - cbn [search]. destruct (Z.leb first last) eqn:Efl.
    2:{ exists None. split; [reflexivity|]. intros i t Hi. lia. }
    set (m := Z.div (first + last) 2).
    assert (Hm : (first <= m <= last)%Z).
    { subst m. split; [apply Z.div_le_lower_bound; lia|apply Z.div_le_upper_bound; lia]. }
    destruct (nth_error l (Z.to_nat m)) as [t|] eqn:Et.
    2:{ apply nth_error_None in Et. lia. }
    rewrite (get_entry_app l z m t) by (try lia; exact Et). cbn [tbind].
    assert (Gt : t_valid t = true /\ p_good (pg t)).
    { destruct W as [W _]. rewrite Forall_forall in W. apply W. eapply nth_error_In; eassumption. }
    destruct Gt as [V G]. rewrite compare_good by assumption. cbn [tbind].
    assert (Hs : 0 < t_size t).
    { destruct G as ([E|[E|E]] & _); unfold p_size in E; cbn in E; lia. }
    destruct (ea <? t_ea t) eqn:E1.
    + cbn [Z.ltb Z.compare]. destruct (Z.eqb first last) eqn:E2.
      * exists None. split; [reflexivity|]. intros i t' Hi Hn.
        assert (Z.to_nat m = i) as Hmi by lia. rewrite Hmi in Et. rewrite Et in Hn.
        injection Hn as <-. unfold p_in, pg, p_ea. cbn. lia.
      * destruct (IH first (m - 1)%Z W) as (r & Er & Hr); try lia.
        exists r. split; [exact Er|]. destruct r as [i|].
        -- destruct Hr as [Hi Ht]. split; [lia|exact Ht].
        -- intros i t' Hi Hn. destruct (Z.le_gt_cases (Z.of_nat i) (m - 1)) as [Hc|Hc].
           ++ apply (Hr i t'); [lia|exact Hn].
           ++ unfold p_in, pg, p_ea, p_size. cbn. intros [Hx _].
              destruct (Nat.eq_dec i (Z.to_nat m)) as [Hq|Hq].
              ** rewrite Hq, Et in Hn. injection Hn as <-. lia.
              ** assert (B : before (pg t) (pg t')).
                 { apply (ordered_nth _ _ (map pg l) (Z.to_nat m) i); [exact (proj2 W)|lia| |].
                   - now apply map_nth_error. - now apply map_nth_error. }
                 unfold before, pg, p_ea, p_size in B. cbn in B. lia.
    + destruct (t_ea t + t_size t <=? ea) eqn:E3.
      * cbn [Z.ltb Z.compare]. destruct (Z.eqb first last) eqn:E2.
        -- exists None. split; [reflexivity|]. intros i t' Hi Hn.
           assert (Z.to_nat m = i) as Hmi by lia. rewrite Hmi in Et. rewrite Et in Hn.
           injection Hn as <-. unfold p_in, pg, p_ea, p_size. cbn. lia.
        -- destruct (IH (m + 1)%Z last W) as (r & Er & Hr); try lia.
           exists r. split; [exact Er|]. destruct r as [i|].
           ++ destruct Hr as [Hi Ht]. split; [lia|exact Ht].
           ++ intros i t' Hi Hn. destruct (Z.le_gt_cases (m + 1) (Z.of_nat i)) as [Hc|Hc].
              ** apply (Hr i t'); [lia|exact Hn].
              ** unfold p_in, pg, p_ea, p_size. cbn. intros [_ Hx].
                 destruct (Nat.eq_dec i (Z.to_nat m)) as [Hq|Hq].
                 --- rewrite Hq, Et in Hn. injection Hn as <-. lia.
                 --- assert (B : before (pg t') (pg t)).
                     { apply (ordered_nth _ _ (map pg l) i (Z.to_nat m)); [exact (proj2 W)|lia| |].
                       - now apply map_nth_error. - now apply map_nth_error. }
                     unfold before, pg, p_ea, p_size in B. cbn in B. lia.
      * cbn [Z.ltb Z.compare]. exists (Some (Z.to_nat m)). split; [reflexivity|].
        split; [lia|]. exists t. split; [exact Et|]. unfold p_in, pg, p_ea, p_size. cbn. lia.
Qed.

(** State shape: [l] the used entries, [k] unused ones. *)
Definition shape (s : tlbs) (l : list tlbe) (k : nat) : Prop :=
  arr s = l ++ repeat zero_tlbe k /\ tlb_next s = N.of_nat (length l) /\
  (tlb_arr s = None -> l = [] /\ k = O).

Lemma replace_nth : forall l z i t t', nth_error l i = Some t ->
  replace (l ++ z) i t' = replace l i t' ++ z /\ length (replace l i t') = length l.
Proof.
  unfold replace. induction l as [|x l IH]; intros z i t t' E; [destruct i; discriminate|].
  destruct i as [|i]; [now split|]. cbn in E. destruct (IH z i t t' E) as [H1 H2].
  cbn [app firstn skipn length] in *. now rewrite H1, H2.
Qed.
Lemma map_replace : forall B (f : tlbe -> B) l i t t', nth_error l i = Some t -> f t' = f t ->
  map f (replace l i t') = map f l.
Proof.
  intros B f. induction l as [|x l IH]; intros i t t' E Ef; [destruct i; discriminate|].
  destruct i as [|i].
  - injection E as <-. unfold replace. cbn. now rewrite Ef.
  - cbn in E. unfold replace in *. cbn. f_equal. eapply IH; eassumption.
Qed.

Lemma wf_ext : forall l l', map pg l' = map pg l -> map t_valid l' = map t_valid l ->
  wf l -> wf l'.
Proof.
  intros l l' E1 E2 [W1 W2]. split; [|now rewrite E1].
  assert (A1 : Forall p_good (map pg l')).
  { rewrite E1. apply Forall_map. eapply Forall_impl; [|exact W1]. cbn. tauto. }
  assert (A2 : Forall (fun v => v = true) (map t_valid l')).
  { rewrite E2. apply Forall_map. eapply Forall_impl; [|exact W1]. cbn. tauto. }
  rewrite Forall_map in A1, A2.
  rewrite Forall_forall in A1, A2. apply Forall_forall.
  intros t Ht. split; [now apply A2|now apply A1].
Qed.

Lemma get_index_spec : forall s l k ea start, wf l -> shape s l k -> (0 <= start)%Z ->
  exists r s', tlb_get_index s ea start = TOk (r, s') /\
    match r with
    | None => s' = s /\ forall i t, (start <= Z.of_nat i)%Z -> nth_error l i = Some t ->
                                    ~ p_in ea (pg t)
    | Some i => (start <= Z.of_nat i)%Z /\
        exists t, nth_error l i = Some t /\ p_in ea (pg t) /\
          s' = set_arr s (replace l i (hit t) ++ repeat zero_tlbe k)
    end.
Proof.
  intros s l k ea start W (Ha & Hn & Hnull) Hst. unfold tlb_get_index. rewrite Ha.
  destruct (search_spec ea l (repeat zero_tlbe k) (S (length (l ++ repeat zero_tlbe k))) start
              (Z.of_N (tlb_next s) - 1)%Z W) as (r & Er & Hr); try (rewrite ?app_length; lia).
  rewrite Er. cbn [tbind]. destruct r as [i|].
  - destruct Hr as [Hi (t & Et & Hin)].
    rewrite nth_error_app1 by (apply nth_error_Some; congruence). rewrite Et.
    eexists _, _. split; [reflexivity|]. split; [lia|]. exists t.
    split; [exact Et|]. split; [exact Hin|].
    now rewrite (proj1 (replace_nth l (repeat zero_tlbe k) i t (hit t) Et)).
  - eexists _, _. split; [reflexivity|]. split; [reflexivity|]. intros i t Hs Et.
    apply (Hr i t); [|exact Et]. assert (i < length l)%nat by (apply nth_error_Some; congruence). lia.
Qed.

Lemma no_holes_app : forall l k b, Forall (fun t => t_valid t = true) l ->
  (l = [] -> b = true \/ True) -> b = true \/ l = [] ->
  no_holes b (l ++ repeat zero_tlbe k) = true.
Proof.
  induction l as [|t l IH]; intros k b HF _ Hb.
  - cbn [app]. clear. revert b. induction k as [|k IH]; intros b; [reflexivity|]. cbn. apply IH.
  - apply Forall_cons_iff in HF as [V HF]. destruct Hb as [->|]; [|discriminate].
    cbn. rewrite V. cbn. apply IH; auto.
Qed.

Lemma validate_ok : forall s l k, wf l -> shape s l k -> tlb_validate s = TOk tt.
Proof.
  intros s l k W S. assert (S' := S). destruct S' as (Ha & Hn & Hnull). unfold tlb_validate.
  replace (tlb_next s <=? tlb_size s) with true.
  2:{ unfold tlb_size. rewrite Ha, app_length, Hn. lia. }
  cbn [tassert tbind].
  assert (C : forall n i, (i + n = length l)%nat -> check_overlaps s i n = TOk tt).
  { induction n as [|n IH]; intros i Hi; [reflexivity|]. cbn [check_overlaps].
    destruct (nth_error l i) as [t|] eqn:Et.
    2:{ apply nth_error_None in Et. lia. }
    rewrite Ha. rewrite (get_entry_app l _ (Z.of_nat i) t) by (rewrite ?Nat2Z.id; try lia; exact Et).
    cbn [tbind]. 
    assert (Gt : p_good (pg t)).
    { destruct W as [W _]. rewrite Forall_forall in W. apply W. eapply nth_error_In; eassumption. }
    assert (NM : forall e, p_in e (pg t) -> no_match s e (Z.of_nat i + 1)%Z = TOk tt).
    { intros e He. unfold no_match.
      destruct (get_index_spec s l k e (Z.of_nat i + 1)%Z W S) as (r & s' & Er & Hr); [lia|].
      rewrite Er. cbn [tbind fst]. destruct r as [j|]; [|reflexivity]. exfalso.
      destruct Hr as [Hj (t' & Et' & Hin & _)].
      assert (B : before (pg t) (pg t')).
      { apply (ordered_nth _ _ (map pg l) i j); [exact (proj2 W)|lia| |];
          now apply map_nth_error. }
      unfold before, p_in in *. lia. }
    destruct Gt as (G1 & _ & _ & G4). unfold p_ea, p_size in G1, G4. cbn in G1, G4.
    assert (Hs : 0 < t_size t) by (destruct G1 as [E|[E|E]]; lia).
    rewrite (NM (t_ea t)). 2:{ unfold p_in, p_ea, p_size. cbn. lia. }
    cbn [tbind].
    rewrite (NM (sub64 (add64 (t_ea t) (t_size t)) 1)).
    2:{ assert (E : sub64 (add64 (t_ea t) (t_size t)) 1 = t_ea t + t_size t - 1).
        { unfold sub64, add64. change w64 with (2 ^ 64).
          destruct (N.eq_dec (t_ea t + t_size t) (2 ^ 64)) as [E|E].
          - rewrite E. reflexivity.
          - rewrite (N.mod_small (t_ea t + t_size t)) by lia. change (1 mod 2 ^ 64) with 1.
            symmetry. apply N.mod_unique with 1; lia. }
        rewrite E. unfold p_in, p_ea, p_size. cbn. lia. }
    cbn [tbind]. apply IH. lia. }
  rewrite C by lia. cbn [tbind]. rewrite Ha, no_holes_app; [reflexivity| |auto|now left].
  destruct W as [W _]. eapply Forall_impl; [|exact W]. cbn. tauto.
Qed.

(** ** Sorting *)
Lemma compare_ea_ok : consistent tlb_compare_ea.
Proof.
  split.
  - intros a b. unfold tlb_compare_ea.
    destruct (t_ea a <? t_ea b) eqn:E1; destruct (t_ea b <? t_ea a) eqn:E2; try reflexivity; lia.
  - intros a b c. unfold tlb_compare_ea.
    destruct (t_ea a <? t_ea b) eqn:E1; destruct (t_ea b <? t_ea a) eqn:E2; try lia;
    destruct (t_ea b <? t_ea c) eqn:E3; destruct (t_ea c <? t_ea b) eqn:E4; try lia;
    destruct (t_ea a <? t_ea c) eqn:E5; destruct (t_ea c <? t_ea a) eqn:E6; lia.
Qed.

Lemma ordered_perm_sym : forall A (R : A -> A -> Prop) l l', (forall a b, R a b -> R b a) ->
  Permutation l l' -> ordered R l -> ordered R l'.
Proof.
  intros A R l l' Hsym HP. induction HP; intros HO.
  - exact I.
  - destruct HO as [H1 H2]. split; [|now apply IHHP].
    rewrite Forall_forall in *. intros y Hy. apply H1.
    eapply Permutation_in; [symmetry; exact HP|exact Hy].
  - destruct HO as [H1 [H2 H3]]. apply Forall_cons_iff in H1 as [H0 H1].
    split; [constructor; [now apply Hsym|exact H2]|]. now split.
  - auto.
Qed.
Lemma ordered_and : forall A (R S : A -> A -> Prop) l, ordered R l -> ordered S l ->
  ordered (fun a b => R a b /\ S a b) l.
Proof.
  induction l as [|a l IH]; intros H1 H2; [exact I|].
  destruct H1 as [H1 H1'], H2 as [H2 H2']. split; [|now apply IH].
  rewrite Forall_forall in *. intros. split; auto.
Qed.
Lemma ordered_map : forall A B (f : A -> B) (R : B -> B -> Prop) l,
  ordered R (map f l) <-> ordered (fun a b => R (f a) (f b)) l.
Proof.
  induction l as [|a l IH]; [reflexivity|]. cbn. rewrite IH, Forall_map. reflexivity.
Qed.

Lemma sort_wf : forall qs l, sorter qs ->
  Forall (fun t => t_valid t = true /\ p_good (pg t)) l -> ordered disj (map pg l) ->
  wf (qs tlb_compare_ea l) /\ Permutation l (qs tlb_compare_ea l).
Proof.
  intros qs l HS HF HD. destruct (HS tlb_compare_ea l compare_ea_ok) as [P O].
  split; [|exact P].
  assert (HF' : Forall (fun t => t_valid t = true /\ p_good (pg t)) (qs tlb_compare_ea l)).
  { rewrite Forall_forall in *. intros t Ht. apply HF.
    eapply Permutation_in; [symmetry; exact P|exact Ht]. }
  split; [exact HF'|]. apply ordered_map.
  assert (HD' : ordered (fun a b => disj (pg a) (pg b)) (qs tlb_compare_ea l)).
  { apply (ordered_perm_sym _ _ l); [intros a b [H|H]; [now right|now left]|exact P|].
    now apply ordered_map. }
  eapply ordered_impl; [|exact (ordered_and _ _ _ _ O HD')]. cbn.
  intros a b Ha Hb [Hc Hd]. rewrite Forall_forall in HF'.
  destruct (HF' a Ha) as (_ & G1 & _). destruct (HF' b Hb) as (_ & G2 & _).
  unfold tlb_compare_ea in Hc. unfold disj, before, psize, pg, p_ea, p_size in *. cbn in *.
  destruct Hd as [Hd|Hd]; [exact Hd|]. exfalso.
  destruct (t_ea a <? t_ea b) eqn:E1; [lia|]. destruct (t_ea b <? t_ea a) eqn:E2; [lia|]. lia.
Qed.

Lemma before_disj : forall l, ordered before l -> ordered disj l.
Proof. intros l H. eapply ordered_impl; [|exact H]. intros a b _ _ Hb. now left. Qed.

(** ** Histories *)
Lemma latest_snoc : forall h o ea, latest (h ++ [o]) ea =
  match o with
  | OSet a flags ra size =>
      if N.odd flags && (a / size =? ea / size) then Some (ra / size * size, size)
      else latest h ea
  | OGet _ _ => latest h ea
  end.
Proof.
  induction h as [|x h IH]; intros o ea.
  - destruct o; [|reflexivity]. cbn. reflexivity.
  - cbn [app latest]. rewrite IH. destruct x.
    + destruct o.
      * destruct (N.odd flags0 && (ea1 / pagesize0 =? ea / pagesize0)); reflexivity.
      * reflexivity.
    + reflexivity.
Qed.

Lemma p_in_div : forall ea b s, s <> 0 -> b mod s = 0 -> (b <= ea < b + s <-> ea / s = b / s).
Proof.
  intros ea b s Hs Hb.
  assert (Eb : b = s * (b / s)) by (assert (H := N.div_mod b s Hs); lia).
  assert (Ee := N.div_mod ea s Hs). assert (Em := N.mod_lt ea s Hs).
  set (q := b / s) in *. set (p := ea / s) in *.
  split; intros H.
  - destruct (N.lt_trichotomy p q) as [Hl|[Hl|Hl]]; [|exact Hl|].
    + exfalso. assert (s * p + s <= s * q). { replace (s * p + s) with (s * (p + 1)) by lia. apply N.mul_le_mono_l. lia. } lia.
    + exfalso. assert (s * q + s <= s * p). { replace (s * q + s) with (s * (q + 1)) by lia. apply N.mul_le_mono_l. lia. } lia.
  - rewrite H in Ee. lia.
Qed.

Definition is_set (h : list op) (b s : N) : Prop :=
  exists a f r, In (OSet a f r s) h /\ N.odd f = true /\ b = a / s * s.

Definition invl (h : list op) (s : tlbs) (l : list tlbe) (k : nat) : Prop :=
  wf l /\ shape s l k /\
  (length l <= length h)%nat /\
  ((exists j, N.of_nat (length l + k) = 2 ^ j /\ j <= 30) \/ (tlb_arr s = None)) /\
  (forall p, In p (map pg l) -> is_set h (p_ea p) (p_size p)) /\
  (forall ea x, latest h ea = Some x <->
     exists p, In p (map pg l) /\ p_in ea p /\ x = (p_ra p, p_size p)).
Definition inv (h : list op) (s : tlbs) : Prop := exists l k, invl h s l k.

Lemma is_set_app : forall h o b s, is_set h b s -> is_set (h ++ [o]) b s.
Proof.
  intros h o b s (a & f & r & H1 & H2 & H3). exists a, f, r.
  split; [apply in_app_iff; now left|]. now split.
Qed.

Lemma unique_in : forall P ea p q, ordered disj P -> In p P -> In q P ->
  p_in ea p -> p_in ea q -> p = q.
Proof.
  induction P as [|x P IH]; intros ea p q HO Hp Hq Ip Iq; [destruct Hp|].
  destruct HO as [H1 H2]. rewrite Forall_forall in H1.
  destruct Hp as [->|Hp]; destruct Hq as [->|Hq]; [reflexivity| | |now apply (IH ea)].
  - specialize (H1 q Hq). unfold disj, p_in in *. lia.
  - specialize (H1 p Hp). unfold disj, p_in in *. lia.
Qed.

Lemma invl_touch : forall h s l k s' l', invl h s l k ->
  map pg l' = map pg l -> map t_valid l' = map t_valid l -> shape s' l' k ->
  (tlb_arr s = None -> tlb_arr s' = None) -> invl h s' l' k.
Proof.
  intros h s l k s' l' (W & S & L & Z & I1 & I2) E1 E2 S' N.
  assert (EL : length l' = length l).
  { rewrite <- (map_length pg l'), E1. apply map_length. }
  split; [now apply (wf_ext l)|]. split; [exact S'|]. split; [lia|].
  split; [destruct Z as [Z|Z]; [left; now rewrite EL|right; auto]|].
  rewrite E1. now split.
Qed.

(** ** Lookup *)
Lemma add_top : forall t, p_good (pg t) ->
  add64 (t_ea t) (t_size t) = if t_ea t + t_size t =? 2 ^ 64 then 0 else t_ea t + t_size t.
Proof.
  intros t (_ & _ & _ & G). unfold p_ea, p_size in G. cbn in G. unfold add64.
  change w64 with (2 ^ 64). destruct (t_ea t + t_size t =? 2 ^ 64) eqn:E.
  - replace (t_ea t + t_size t) with (2 ^ 64) by lia. reflexivity.
  - apply N.mod_small. lia.
Qed.

Lemma lor_disjoint_add' : forall a b s, psize s -> b < s ->
  N.lor b (a * s) = a * s + b.
Proof.
  intros a b s H Hb. destruct (psize_pow s H) as (k & -> & _).
  rewrite N.lor_comm. now apply lor_disjoint_add.
Qed.

Lemma psize_pos : forall s, psize s -> 0 < s.
Proof. intros s [->|[->| ->]]; lia. Qed.

Lemma get_step : forall h s ea flags, inv h s -> op_ok (OGet ea flags) ->
  (N.odd flags = true -> forall page size, latest h ea = Some (page, size) ->
     (ea / size + 1) * size < 2 ^ 64) ->
  exists s', tlb_ra_get s ea flags = TOk (answer h ea flags, s') /\
             inv (h ++ [OGet ea flags]) s'.
Proof.
  intros h s ea flags (l & k & I) (Hea & Hfl) Htop. unfold tlb_ra_get, answer.
  rewrite flags_odd.
  assert (Hsnoc : forall s l k, invl h s l k -> inv (h ++ [OGet ea flags]) s).
  { intros s0 l0 k0 (W & S & L & Z & I1 & I2). exists l0, k0. split; [exact W|].
    split; [exact S|]. split; [rewrite app_length; lia|]. split; [exact Z|].
    split; [intros p Hp; apply is_set_app, I1, Hp|].
    intros e x. rewrite latest_snoc. apply I2. }
  destruct (N.odd flags) eqn:Eo; cbn [negb].
  2:{ exists s. rewrite low62. split; [reflexivity|]. eapply Hsnoc, I. }
  specialize (Hfl eq_refl). subst flags. specialize (Htop eq_refl).
  set (s1 := mk_tlbs _ _ _ _ _).
  assert (I' : invl h s1 l k).
  { destruct I as (W & (S1 & S2 & S3) & L & Z & I1 & I2).
    split; [exact W|]. split; [split; [exact S1|split; [exact S2|exact S3]]|]. split; [exact L|]. split; [exact Z|]. now split. }
  assert (S1 : shape s1 l k) by apply I'.
  assert (W : wf l) by apply I'.
  destruct (get_index_spec s1 l k ea 0 W S1) as (r & s' & Er & Hr); [lia|].
  rewrite Er. cbn [tbind]. assert (IL := proj2 (proj2 (proj2 (proj2 (proj2 I'))))).
  destruct r as [i|].
  - destruct Hr as [_ (t & Et & Hin & ->)].
    assert (Gt : t_valid t = true /\ p_good (pg t)).
    { destruct W as [W _]. rewrite Forall_forall in W. apply W. eapply nth_error_In; eassumption. }
    destruct Gt as [V G].
    assert (EL : latest h ea = Some (t_ra t, t_size t)).
    { apply IL. exists (pg t). split; [apply in_map; eapply nth_error_In; eassumption|].
      now split. }
    rewrite EL. assert (Hns : tlb_arr s1 <> None).
    { intro Hn. destruct S1 as (_ & _ & S3). destruct (S3 Hn) as [-> _]. destruct i; discriminate. }
    destruct (tlb_arr s1) as [a|] eqn:Ea; [|congruence].
    assert (EA : arr (set_arr s1 (replace l i (hit t) ++ repeat zero_tlbe k))
                 = replace l i (hit t) ++ repeat zero_tlbe k).
    { unfold arr, set_arr. now rewrite Ea. }
    assert (En : nth_error (replace l i (hit t)) i = Some (hit t)).
    { clear - Et. revert i Et. induction l as [|x l IH]; intros i Et; [destruct i; discriminate|].
      destruct i; [reflexivity|]. cbn in *. now apply IH. }
    rewrite EA, (get_entry_app _ _ (Z.of_nat i) (hit t)) by (rewrite ?Nat2Z.id; try lia; exact En).
    cbn [tbind].
    assert (V' : t_valid (hit t) = true) by exact V.
    assert (G' : p_good (pg (hit t))) by exact G.
    unfold tlb_translate. rewrite entry_ok_good by assumption.
    cbn [hit t_ea t_ra t_size].
    assert (Hin' := Hin). unfold p_in, p_ea, p_size in Hin'. cbn in Hin'.
    replace (t_ea t <=? ea) with true by lia. cbn [tassert tbind].
    destruct G as (G1 & G2 & (G3 & G5) & G4).
    unfold p_ea, p_size, p_ra in G1, G2, G3, G4, G5. cbn in G1, G2, G3, G4, G5. assert (Hs := psize_pos _ G1).
    specialize (Htop _ _ EL).
    assert (Hb : t_ea t = ea / t_size t * t_size t).
    { assert (Hd : ea / t_size t = t_ea t / t_size t) by (apply p_in_div; [lia|exact G2|exact Hin']).
      rewrite Hd. assert (Hx := N.div_mod (t_ea t) (t_size t)). lia. }
    rewrite (add_top t) by exact G'. replace (t_ea t + t_size t =? 2 ^ 64) with false by lia.
    replace (ea <? t_ea t + t_size t) with true by lia.
    cbn [tassert tbind]. change (flags_ok 1) with true. cbn [tassert tbind].
    rewrite mask_offset_land by exact G1.
    assert (Hra : t_ra t = t_ra t / t_size t * t_size t).
    { assert (Hx := N.div_mod (t_ra t) (t_size t)). lia. }
    assert (Em : N.land (t_ra t) (mask_rpn (t_size t)) = t_ra t / t_size t * t_size t).
    { apply mask_rpn_land; [exact G1|exact G5]. }
    rewrite Em, lor_disjoint_add' by (try exact G1; apply N.mod_lt; lia).
    rewrite <- Hra. eexists. split; [reflexivity|]. eapply Hsnoc.
    apply (invl_touch h s1 l k _ (replace l i (hit t)) I').
    + eapply map_replace; [exact Et|reflexivity].
    + eapply map_replace; [exact Et|reflexivity].
    + split; [exact EA|]. split; [|intro Hn; unfold set_arr in Hn; rewrite Ea in Hn; discriminate].
      cbn [set_arr tlb_next]. rewrite (proj2 (replace_nth l [] i t (hit t) Et)). apply S1.
    + intro. congruence.
  - destruct Hr as [-> Hno].
    assert (EL : latest h ea = None).
    { destruct (latest h ea) as [x|] eqn:E; [|reflexivity]. exfalso.
      apply IL in E as (p & Hp & Hpin & _). apply in_map_iff in Hp as (t & <- & Ht).
      apply In_nth_error in Ht as [i Hi]. apply (Hno i t); [lia|exact Hi|exact Hpin]. }
    rewrite EL. eexists. split; [reflexivity|]. eapply Hsnoc.
    destruct I' as (_ & (S1' & S2 & S3) & L & Z & I1 & I2).
    split; [exact W|]. split; [split; [exact S1'|split; [exact S2|exact S3]]|]. split; [exact L|]. split; [exact Z|]. now split.
Qed.

(** ** Set *)
Lemma compat_cases : forall h ea ra sz p, psize sz ->
  no_mixed_overlap (h ++ [OSet ea 1 ra sz]) -> psize (p_size p) ->
  is_set h (p_ea p) (p_size p) ->
  (p_size p = sz /\ (p_ea p = ea / sz * sz \/ disj p (ea / sz * sz, ra, sz))) \/
  disj p (ea / sz * sz, ra, sz).
Proof.
  intros h ea ra sz p Hsz HC Hp (a & f & r & H1 & H2 & H3).
  assert (Hpos := psize_pos _ Hsz).
  destruct (HC a f r (p_size p) ea 1 ra sz) as [E|[E|E]];
    [apply in_app_iff; now left|exact H2|apply in_app_iff; right; now left|reflexivity| | |].
  - left. split; [exact E|]. rewrite E in H3.
    destruct (N.lt_trichotomy (a / sz) (ea / sz)) as [H|[H|H]].
    + right. left. rewrite H3, E. unfold p_ea. cbn [fst].
      replace (a / sz * sz + sz) with ((a / sz + 1) * sz) by lia. apply N.mul_le_mono_r. lia.
    + left. now rewrite H3, H.
    + right. right. rewrite H3. unfold p_ea, p_size. cbn [fst snd].
      replace (ea / sz * sz + sz) with ((ea / sz + 1) * sz) by lia. apply N.mul_le_mono_r. lia.
  - right. left. rewrite H3. unfold p_ea at 1. cbn [fst]. lia.
  - right. right. rewrite H3. unfold p_ea, p_size at 1. cbn [fst snd]. lia.
Qed.

Lemma page_in : forall sz ea ra, 0 < sz -> p_in ea (ea / sz * sz, ra, sz).
Proof.
  intros sz ea ra H. unfold p_in, p_ea, p_size. cbn [fst snd].
  assert (H1 := N.div_mod ea sz). assert (H2 := N.mod_lt ea sz). lia.
Qed.

Lemma page_in_iff : forall sz ea ea' ra, 0 < sz ->
  p_in ea' (ea / sz * sz, ra, sz) <-> ea / sz = ea' / sz.
Proof.
  intros sz ea ea' ra H. unfold p_in, p_ea, p_size. cbn [fst snd].
  rewrite p_in_div by (rewrite ?N.mod_mul; lia). rewrite N.div_mul by lia.
  split; congruence.
Qed.

(** The pages after a set: the new one and those not holding [ea]. *)
Lemma pages_step : forall h ea ra sz P P', psize sz ->
  no_mixed_overlap (h ++ [OSet ea 1 ra sz]) -> Forall p_good P ->
  (forall p, In p P -> is_set h (p_ea p) (p_size p)) ->
  (forall ea x, latest h ea = Some x <->
     exists p, In p P /\ p_in ea p /\ x = (p_ra p, p_size p)) ->
  (forall p, In p P' <-> p = (ea / sz * sz, ra / sz * sz, sz) \/ (In p P /\ ~ p_in ea p)) ->
  (forall p, In p P' -> is_set (h ++ [OSet ea 1 ra sz]) (p_ea p) (p_size p)) /\
  (forall e x, latest (h ++ [OSet ea 1 ra sz]) e = Some x <->
     exists p, In p P' /\ p_in e p /\ x = (p_ra p, p_size p)).
Proof.
  intros h ea ra sz P P' Hsz HC HG I1 I2 HP. assert (Hpos := psize_pos _ Hsz).
  rewrite Forall_forall in HG. split.
  - intros p Hp. apply HP in Hp as [->|[Hp _]].
    + exists ea, 1, ra. unfold p_ea, p_size. cbn [fst snd].
      split; [apply in_app_iff; right; now left|]. now split.
    + apply is_set_app, I1, Hp.
  - intros e x. rewrite latest_snoc. change (N.odd 1) with true. cbn [andb].
    assert (HD : forall p, In p P -> p_in e p -> disj p (ea / sz * sz, ra, sz) ->
                 ea / sz <> e / sz).
    { intros p _ Hpe Hd He. apply (page_in_iff sz ea e ra Hpos) in He.
      unfold disj, p_in in *. lia. }
    destruct (ea / sz =? e / sz) eqn:Ee.
    + apply N.eqb_eq in Ee. split.
      * intros [= <-]. exists (ea / sz * sz, ra / sz * sz, sz).
        split; [apply HP; now left|]. split; [now apply page_in_iff|reflexivity].
      * intros (p & Hp & Hpe & ->). apply HP in Hp as [->|[Hp Hn]]; [reflexivity|]. exfalso.
        destruct (compat_cases h ea ra sz p Hsz HC (proj1 (HG p Hp)) (I1 p Hp)) as [[E [E'|E']]|E'].
        -- apply Hn. assert (Hx := page_in sz ea ra Hpos). unfold p_in in *.
           rewrite E, E'. unfold p_ea, p_size in Hx. cbn [fst snd] in Hx. exact Hx.
        -- now apply (HD p).
        -- now apply (HD p).
    + apply N.eqb_neq in Ee. rewrite I2. split; intros (p & Hp & Hpe & Hx); exists p.
      * split; [|now split]. apply HP. right. split; [exact Hp|]. intro Hin. apply Ee.
        destruct (compat_cases h ea ra sz p Hsz HC (proj1 (HG p Hp)) (I1 p Hp)) as [[E [E'|E']]|E'].
        -- apply (page_in_iff sz ea e ra Hpos). unfold p_in in *. rewrite E, E' in Hpe.
           unfold p_ea, p_size. cbn [fst snd]. exact Hpe.
        -- exfalso. assert (Hy := page_in sz ea ra Hpos). unfold disj, p_in in *. lia.
        -- exfalso. assert (Hy := page_in sz ea ra Hpos). unfold disj, p_in in *. lia.
      * apply HP in Hp as [->|[Hp _]]; [|now split].
        exfalso. apply Ee. now apply (page_in_iff sz ea e (ra / sz * sz)).
Qed.

Lemma nth_replace : forall l i t t', nth_error l i = Some t ->
  exists l1 l2, l = l1 ++ t :: l2 /\ replace l i t' = l1 ++ t' :: l2.
Proof.
  induction l as [|x l IH]; intros i t t' E; [destruct i; discriminate|].
  destruct i as [|i].
  - injection E as ->. exists [], l. now split.
  - cbn in E. destruct (IH i t t' E) as (l1 & l2 & -> & H2). exists (x :: l1), l2.
    split; [reflexivity|]. unfold replace in *. cbn. now rewrite <- H2.
Qed.

Lemma good_new : forall ea ra sz, psize sz -> ea < 2 ^ 64 -> ra < 2 ^ 64 ->
  p_good (ea / sz * sz, ra / sz * sz, sz).
Proof.
  intros ea ra sz Hsz He Hr. assert (Hpos := psize_pos _ Hsz).
  unfold p_good, p_ea, p_ra, p_size. cbn [fst snd]. rewrite !N.mod_mul by lia.
  split; [exact Hsz|]. split; [reflexivity|]. split.
  - split; [reflexivity|]. assert (Hx := N.div_mod ra sz). lia.
  - destruct (psize_pow sz Hsz) as (k & -> & Hk).
    assert (Hd : ea / 2 ^ k < 2 ^ (64 - k)).
    { apply N.div_lt_upper_bound; [apply N.pow_nonzero; lia|]. rewrite <- N.pow_add_r.
      replace (k + (64 - k)) with 64 by lia. exact He. }
    assert (H64 : 2 ^ 64 = 2 ^ (64 - k) * 2 ^ k) by (rewrite <- N.pow_add_r; f_equal; lia).
    rewrite H64. replace (ea / 2 ^ k * 2 ^ k + 2 ^ k) with ((ea / 2 ^ k + 1) * 2 ^ k) by lia.
    apply N.mul_le_mono_r. lia.
Qed.

(** The sort and the check at the end of tlb_ra_set, from a state whose first
    [next] entries are [l'], a permutation of the new entry and [lq]. *)
Lemma finish : forall qs h ea ra sz P s3 l' lq k ch, sorter qs -> psize sz ->
  ea < 2 ^ 64 -> ra < 2 ^ 64 ->
  no_mixed_overlap (h ++ [OSet ea 1 ra sz]) -> Forall p_good P ->
  (forall p, In p P -> is_set h (p_ea p) (p_size p)) ->
  (forall ea x, latest h ea = Some x <->
     exists p, In p P /\ p_in ea p /\ x = (p_ra p, p_size p)) ->
  Permutation l' (mk_tlbe (ea / sz * sz) (ra / sz * sz) sz 0 0 true :: lq) ->
  (forall p, In p (map pg lq) <-> In p P /\ ~ p_in ea p) ->
  Forall (fun t => t_valid t = true) lq -> ordered disj (map pg lq) ->
  (length l' <= S (length h))%nat ->
  (exists j, N.of_nat (length l' + k) = 2 ^ j /\ j <= 30) ->
  tlb_arr s3 <> None -> tlb_next s3 = N.of_nat (length l') ->
  let l := l' ++ repeat zero_tlbe k in
  let n := N.to_nat (tlb_next s3) in
  let s4 := mk_tlbs (match tlb_arr s3 with
                     | Some _ => Some (qs tlb_compare_ea (firstn n l) ++ skipn n l)
                     | None => None end)
                    (tlb_next s3) (tlb_translations s3) (tlb_no_translation s3) ch in
  tlb_validate s4 = TOk tt /\ inv (h ++ [OSet ea 1 ra sz]) s4.
Proof.
  intros qs h ea ra sz P s3 l' lq k ch HS Hsz He Hr HC HG I1 I2 HP HQ HV HD HL HJ Hs3 Hnx l n s4.
  set (tn := mk_tlbe _ _ _ _ _ _) in HP.
  assert (En : n = length l') by (subst n; lia).
  assert (E4 : tlb_arr s4 = Some (qs tlb_compare_ea l' ++ repeat zero_tlbe k)).
  { subst s4. cbn [tlb_arr]. destruct (tlb_arr s3); [|congruence]. rewrite En. subst l.
    now rewrite firstn_app, firstn_all, Nat.sub_diag, skipn_app, skipn_all, Nat.sub_diag, app_nil_r. }
  rewrite Forall_forall in HG.
  assert (HGq : Forall p_good (map pg lq)).
  { apply Forall_forall. intros p Hp. apply HG, HQ, Hp. }
  assert (HF : Forall (fun t => t_valid t = true /\ p_good (pg t)) l').
  { apply Forall_forall. intros t Ht. eapply Permutation_in in Ht; [|exact HP].
    destruct Ht as [<-|Ht].
    - split; [reflexivity|]. now apply good_new.
    - rewrite Forall_forall in HV. split; [now apply HV|].
      rewrite Forall_forall in HGq. apply HGq. now apply in_map. }
  assert (HDl : ordered disj (map pg l')).
  { apply (ordered_perm_sym _ _ (map pg (tn :: lq))).
    - intros a b [H|H]; [now right|now left].
    - apply Permutation_map. now symmetry.
    - cbn [map]. split; [|exact HD]. apply Forall_forall. intros p Hp.
      assert (Hp' := proj1 (HQ p) Hp). destruct Hp' as [Hp' Hn].
      assert (Hpos := psize_pos _ Hsz). assert (Hx := page_in sz ea ra Hpos).
      destruct (compat_cases h ea ra sz p Hsz HC (proj1 (HG p Hp')) (I1 p Hp')) as [[E [E'|E']]|E'].
      + exfalso. apply Hn. unfold p_in in *. rewrite E, E'.
        unfold p_ea, p_size in Hx. cbn [fst snd] in Hx. exact Hx.
      + destruct E' as [E'|E']; [right|left]; exact E'.
      + destruct E' as [E'|E']; [right|left]; exact E'. }
  destruct (sort_wf qs l' HS HF HDl) as [W P'].
  assert (EL := Permutation_length P').
  assert (SH : shape s4 (qs tlb_compare_ea l') k).
  { split; [unfold arr; now rewrite E4|]. split; [cbn; now rewrite <- EL|].
    intro Hn. rewrite E4 in Hn. discriminate. }
  split; [eapply validate_ok; eassumption|].
  exists (qs tlb_compare_ea l'), k. split; [exact W|]. split; [exact SH|].
  split; [rewrite app_length; cbn; lia|].
  split; [left; rewrite <- EL; exact HJ|].
  apply (pages_step h ea ra sz P); try assumption.
  - now apply Forall_forall.
  - intros p. rewrite <- HQ.
    assert (HI : In p (map pg (qs tlb_compare_ea l')) <-> In p (map pg (tn :: lq))).
    { split; intro H; (eapply Permutation_in; [|exact H]); apply Permutation_map.
      - rewrite <- HP. now symmetry.
      - rewrite <- P'. now symmetry. }
    rewrite HI. cbn [map]. change (pg tn) with (ea / sz * sz, ra / sz * sz, sz).
    split; (intros [H|H]; [now left|now right]).
Qed.

Lemma set_step : forall qs h s ea flags ra sz, sorter qs -> inv h s ->
  op_ok (OSet ea flags ra sz) -> no_mixed_overlap (h ++ [OSet ea flags ra sz]) ->
  N.of_nat (length h) < 2 ^ 30 ->
  exists s', tlb_ra_set qs s ea flags ra sz = TOk s' /\
             inv (h ++ [OSet ea flags ra sz]) s'.
Proof.
  intros qs h s ea flags ra sz HS (l & k & I) Hok HC Hlen. unfold tlb_ra_set.
  rewrite flags_odd. destruct (N.odd flags) eqn:Eo; cbn [negb].
  2:{ exists s. split; [reflexivity|]. exists l, k.
      destruct I as (W & S & L & Z & I1 & I2). split; [exact W|].
      split; [exact S|]. split; [rewrite app_length; lia|]. split; [exact Z|].
      split; [intros p Hp; apply is_set_app, I1, Hp|].
      intros e x. rewrite latest_snoc, Eo. apply I2. }
  destruct (Hok Eo) as (-> & He & Hr & Hsz). clear Hok Eo.
  rewrite (proj2 (pagesize_ok_iff sz) Hsz). cbn [tassert tbind].
  change (flags_ok 1) with true. cbn [tassert tbind].
  assert (I' := I). destruct I' as (W & S & L & Z & I1 & I2).
  assert (HG : Forall p_good (map pg l)).
  { apply Forall_map. eapply Forall_impl; [|exact (proj1 W)]. cbn. tauto. }
  assert (HV : Forall (fun t => t_valid t = true) l).
  { eapply Forall_impl; [|exact (proj1 W)]. cbn. tauto. }
  assert (HD : ordered disj (map pg l)) by (apply before_disj, W).
  rewrite (mask_rpn_land sz ea Hsz He), (mask_rpn_land sz ra Hsz Hr).
  set (tn := mk_tlbe _ _ _ _ _ _).
  destruct (get_index_spec s l k ea 0 W S) as (r & s' & Er & Hr'); [lia|].
  rewrite Er. cbn [tbind]. clear Er. destruct r as [i|].
  - destruct Hr' as [_ (t & Et & Hin & ->)]. cbn [tbind].
    assert (Hns : tlb_arr s <> None).
    { intro Hn. destruct S as (_ & _ & S3). destruct (S3 Hn) as [-> _]. destruct i; discriminate. }
    destruct (nth_replace l i t (hit t) Et) as (l1 & l2 & El & El').
    rewrite El' in *.
    set (s3 := set_arr s _).
    assert (EA : arr s3 = (l1 ++ hit t :: l2) ++ repeat zero_tlbe k).
    { unfold arr, s3, set_arr. destruct (tlb_arr s); [reflexivity|congruence]. }
    assert (Hi : i = length l1).
    { assert (Hi : (i < length l)%nat) by (apply nth_error_Some; congruence).
      unfold replace in El'. apply (f_equal (fun x => length x)) in El'.
      clear - Et El W Hin. subst l.
      destruct (Nat.lt_trichotomy i (length l1)) as [H|[H|H]]; [exfalso|exact H|exfalso].
      - assert (B : before (pg t) (pg t)).
        { apply (ordered_nth _ _ (map pg (l1 ++ t :: l2)) i (length l1)); [exact (proj2 W)|exact H| |].
          - now apply map_nth_error.
          - apply map_nth_error. now rewrite nth_error_app2, Nat.sub_diag by lia. }
        unfold before, p_in in *. lia.
      - assert (B : before (pg t) (pg t)).
        { apply (ordered_nth _ _ (map pg (l1 ++ t :: l2)) (length l1) i); [exact (proj2 W)|exact H| |].
          - apply map_nth_error. now rewrite nth_error_app2, Nat.sub_diag by lia.
          - now apply map_nth_error. }
        unfold before, p_in in *. lia. }
    assert (En : nth_error (l1 ++ hit t :: l2) i = Some (hit t)).
    { rewrite Hi, nth_error_app2, Nat.sub_diag by lia. reflexivity. }
    rewrite EA, (get_entry_app _ _ (Z.of_nat i) (hit t)) by (rewrite ?Nat2Z.id; try lia; exact En).
    cbn [tbind].
    assert (Ert : forall t', replace ((l1 ++ hit t :: l2) ++ repeat zero_tlbe k) i t'
                  = (l1 ++ t' :: l2) ++ repeat zero_tlbe k).
    { intro t'. rewrite (proj1 (replace_nth _ _ i (hit t) t' En)). f_equal.
      unfold replace. rewrite Hi, firstn_app, firstn_all, Nat.sub_diag. cbn [firstn].
      rewrite app_nil_r. f_equal. f_equal.
      replace (Datatypes.S (length l1)) with (length (l1 ++ [hit t])) by (rewrite app_length; cbn; lia).
      replace (l1 ++ hit t :: l2) with ((l1 ++ [hit t]) ++ l2) by now rewrite <- app_assoc.
      now rewrite skipn_app, skipn_all, Nat.sub_diag. }
    rewrite !Ert. clear Ert.
    assert (HQ : forall p, In p (map pg (l1 ++ l2)) <-> In p (map pg l) /\ ~ p_in ea p).
    { intros p. rewrite El, !map_app. cbn [map].
      assert (HDt : Forall (disj (pg t)) (map pg (l1 ++ l2))).
      { assert (HO : ordered disj (map pg (t :: l1 ++ l2))).
        { apply (ordered_perm_sym _ _ (map pg l)); [intros a b [H|H]; [now right|now left]| |exact HD].
          apply Permutation_map. rewrite El. symmetry. apply Permutation_middle. }
        apply HO. }
      rewrite Forall_forall, map_app in HDt. split.
      - intros Hp. split; [|intro Hx; specialize (HDt p Hp); unfold disj, p_in in *; lia].
        apply in_app_iff in Hp as [Hp|Hp]; apply in_app_iff; [now left|right; now right].
      - intros [Hp Hn]. apply in_app_iff in Hp as [Hp|[Hp|Hp]]; apply in_app_iff; [now left| |now right].
        exfalso. apply Hn. now rewrite <- Hp. }
    assert (HVq : Forall (fun t => t_valid t = true) (l1 ++ l2)).
    { rewrite El in HV. apply Forall_app in HV as [V1 V2]. apply Forall_cons_iff in V2 as [_ V2].
      apply Forall_app. now split. }
    assert (HDq : ordered disj (map pg (l1 ++ l2))).
    { assert (HO : ordered disj (map pg (t :: l1 ++ l2))).
      { apply (ordered_perm_sym _ _ (map pg l)); [intros a b [H|H]; [now right|now left]| |exact HD].
        apply Permutation_map. rewrite El. symmetry. apply Permutation_middle. }
      apply HO. }
    destruct (tlb_equal tn (hit t)) eqn:Eq.
    + unfold tlb_equal in Eq. cbn in Eq. unfold hit. cbn.
      assert (Ept : pg t = pg tn) by (unfold pg; cbn; f_equal; [f_equal|]; lia).
      set (tm := mk_tlbe _ _ _ _ _ _).
      eexists. split; [reflexivity|].
      exists (l1 ++ tm :: l2), k.
      assert (EP : map pg (l1 ++ tm :: l2) = map pg l).
      { rewrite El, !map_app. reflexivity. }
      assert (EV : map t_valid (l1 ++ tm :: l2) = map t_valid l).
      { rewrite El, !map_app. reflexivity. }
      split; [now apply (wf_ext l)|]. split.
      { split; [unfold arr, s3, set_arr; cbn; destruct (tlb_arr s); [reflexivity|congruence]|].
        split.
        - cbn. rewrite (proj1 (proj2 S)), El, !app_length. reflexivity.
        - cbn. destruct (tlb_arr s); [discriminate|congruence]. }
      split; [rewrite El in L; rewrite app_length in L |- *; rewrite app_length; cbn in *; lia|].
      split.
      { destruct Z as [Z|Z]; [left|congruence]. rewrite El in Z. rewrite app_length in *.
        exact Z. }
      rewrite EP. apply (pages_step h ea ra sz (map pg l)); try assumption.
      intros p. rewrite <- HQ. rewrite El, !map_app. cbn [map]. rewrite Ept.
      change (pg tn) with (ea / sz * sz, ra / sz * sz, sz).
      rewrite !in_app_iff. cbn [In]. split.
      * intros [H|[H|H]]; [right; now left|left; now symmetry|right; now right].
      * intros [H|[H|H]]; [right; left; now symmetry|now left|right; now right].
    + edestruct (finish qs h ea ra sz (map pg l) s3 (l1 ++ tn :: l2) (l1 ++ l2) k) as [F1 F2];
        try eassumption.
      * symmetry. apply Permutation_middle.
      * rewrite El in L. rewrite app_length in *. cbn [length] in *. lia.
      * destruct Z as [Z|Z]; [|congruence]. rewrite El in Z. rewrite !app_length in *. exact Z.
      * unfold s3, set_arr. cbn. destruct (tlb_arr s); congruence.
      * unfold s3. cbn. rewrite (proj1 (proj2 S)), El, !app_length. reflexivity.
      * cbv zeta. rewrite F1. cbn [tbind]. eexists. split; [reflexivity|exact F2].
  - destruct Hr' as [-> Hno]. cbn [tbind].
    assert (HQ : forall p, In p (map pg l) <-> In p (map pg l) /\ ~ p_in ea p).
    { intros p. split; [|tauto]. intros Hp. split; [exact Hp|].
      apply in_map_iff in Hp as (t & <- & Ht). apply In_nth_error in Ht as [i Hi].
      apply (Hno i t); [lia|exact Hi]. }
    assert (HA : exists s2 k', (if tlb_size s =? tlb_next s then tlb_allocate s else TOk s) = TOk s2 /\
               tlb_arr s2 = Some (l ++ repeat zero_tlbe (Datatypes.S k')) /\ tlb_next s2 = tlb_next s /\
               exists j, N.of_nat (length l + Datatypes.S k') = 2 ^ j /\ j <= 30).
    { destruct S as (S1 & S2 & S3). unfold tlb_size. rewrite S1, app_length, repeat_length, S2.
      destruct (tlb_arr s) as [a|] eqn:Ea.
      - assert (Ha : a = l ++ repeat zero_tlbe k) by (unfold arr in S1; now rewrite Ea in S1).
        destruct Z as [(j & Hj & Hj30)|Z]; [|discriminate].
        destruct (N.of_nat (length l + k) =? N.of_nat (length l)) eqn:Ef.
        + assert (k = O) by lia. subst k. cbn [repeat] in *. rewrite app_nil_r in Ha. subst a.
          unfold tlb_allocate. rewrite Ea. unfold tlb_size. rewrite S1, app_nil_r.
          assert (Hj' : j < 30).
          { destruct (N.eq_dec j 30) as [->|]; [|lia]. exfalso. clear - Hj Hlen L.
            change (2 ^ 30) with 1073741824 in *. lia. }
          assert (H2 : 2 ^ (j + 1) = 2 * 2 ^ j) by (rewrite N.add_1_r; apply N.pow_succ_r').
          assert (H3 : 2 ^ (j + 1) <= 2 ^ 30) by (apply N.pow_le_mono_r; lia).
          change (2 ^ 30) with 1073741824 in H3.
          replace (N.of_nat (length l) * 2 <? 2147483648) with true by lia.
          set (s' := mk_tlbs _ _ _ _ _).
          rewrite (validate_ok s' l (length l) W).
          2:{ split; [reflexivity|]. split; [exact S2|]. discriminate. }
          cbn [tbind]. destruct l as [|t0 l0] eqn:El.
          { exfalso. cbn in Hj. assert (2 ^ j <> 0) by (apply N.pow_nonzero; lia). lia. }
          exists s', (length l0). split; [reflexivity|]. split; [reflexivity|].
          split; [exact S2|]. exists (j + 1). split; [|lia]. rewrite H2. cbn [length] in *. lia.
        + exists s, (pred k). split; [reflexivity|].
          assert (Hk : k = Datatypes.S (pred k)) by lia. rewrite <- Hk.
          split; [now rewrite Ea, Ha|]. split; [congruence|]. now exists j.
      - destruct (S3 eq_refl) as [-> ->]. cbn [length].
        change (N.of_nat (0 + 0) =? N.of_nat 0) with true. cbv iota.
        unfold tlb_allocate. rewrite Ea. eexists _, O. split; [reflexivity|].
        split; [reflexivity|]. split; [cbn; exact S2|]. exists 0. split; [reflexivity|lia]. }
    destruct HA as (s2 & k' & -> & Ea2 & En2 & HJ). cbn [tbind].
    assert (Hnx : tlb_next s = N.of_nat (length l)) by apply S.
    set (s3 := mk_tlbs _ _ _ _ _).
    assert (EA : arr s3 = (l ++ [zero_tlbe]) ++ repeat zero_tlbe k').
    { unfold arr, s3. cbn [tlb_arr]. rewrite Ea2, <- app_assoc. reflexivity. }
    rewrite Hnx, Nat2N.id.
    assert (En : nth_error (l ++ [zero_tlbe]) (length l) = Some zero_tlbe).
    { now rewrite nth_error_app2, Nat.sub_diag by lia. }
    rewrite EA, (get_entry_app _ _ (Z.of_nat (length l)) zero_tlbe)
      by (rewrite ?Nat2Z.id; try lia; exact En).
    cbn [tbind].
    replace (tlb_equal tn zero_tlbe) with false
      by (unfold tlb_equal; cbn; now rewrite andb_false_r).
    rewrite (proj1 (replace_nth _ _ (length l) zero_tlbe tn En)).
    assert (Ert : replace (l ++ [zero_tlbe]) (length l) tn = l ++ [tn]).
    { unfold replace. rewrite firstn_app, firstn_all, Nat.sub_diag. cbn [firstn].
      rewrite app_nil_r. f_equal. f_equal.
      replace (Datatypes.S (length l)) with (length (l ++ [zero_tlbe])) by (rewrite app_length; cbn; lia).
      apply skipn_all. }
    rewrite Ert.
    edestruct (finish qs h ea ra sz (map pg l) s3 (l ++ [tn]) l k') as [F1 F2]; try eassumption.
    + symmetry. apply Permutation_cons_append.
    + rewrite app_length. cbn. lia.
    + destruct HJ as (j & Hj & Hj'). exists j. split; [|exact Hj']. rewrite <- Hj, app_length.
      cbn. lia.
    + unfold s3. cbn. congruence.
    + unfold s3. cbn. rewrite En2, Hnx, app_length. cbn. lia.
    + cbv zeta. rewrite F1. cbn [tbind]. eexists. split; [reflexivity|exact F2].
Qed.

Lemma inv_zero : inv [] tlb_zero.
Proof.
  exists [], O. split; [split; [constructor|exact I]|]. split.
  - split; [reflexivity|]. split; [reflexivity|]. auto.
  - split; [cbn; lia|]. split; [now right|]. split; [intros p []|].
    intros ea x. split; [discriminate|]. intros (p & [] & _).
Qed.

Lemma no_mixed_app : forall h h', no_mixed_overlap (h ++ h') -> no_mixed_overlap h.
Proof.
  intros h h' H a1 f1 r1 s1 a2 f2 r2 s2 H1 O1 H2 O2.
  apply (H a1 f1 r1 s1 a2 f2 r2 s2); try assumption; apply in_app_iff; now left.
Qed.

Lemma run_inv : forall qs h pre s, sorter qs -> inv pre s -> Forall op_ok h ->
  no_mixed_overlap (pre ++ h) -> top_unused pre h ->
  N.of_nat (length (pre ++ h)) <= 2 ^ 30 ->
  exists s', tlb_run qs s h = TOk (s', answers pre h) /\ inv (pre ++ h) s'.
Proof.
  intros qs. induction h as [|o h IH]; intros pre s HS Hi Hok HC HT HL.
  - exists s. rewrite app_nil_r. now split.
  - apply Forall_cons_iff in Hok as [Ho Hok].
    replace (pre ++ o :: h) with ((pre ++ [o]) ++ h) in * by now rewrite <- app_assoc.
    assert (HL' : N.of_nat (length pre) < 2 ^ 30).
    { clear - HL. rewrite !app_length in HL. cbn [length] in HL.
      change (2 ^ 30) with 1073741824 in *. lia. }
    destruct o as [ea flags ra sz|ea flags]; cbn [tlb_run answers].
    + destruct (set_step qs pre s ea flags ra sz HS Hi Ho) as (s1 & E1 & Hi1);
        [eapply no_mixed_app; exact HC|exact HL'|].
      rewrite E1. cbn [tbind]. apply IH; assumption.
    + destruct HT as [HT1 HT2].
      destruct (get_step pre s ea flags Hi Ho HT1) as (s1 & E1 & Hi1).
      rewrite E1. cbn [tbind fst snd].
      destruct (IH _ s1 HS Hi1 Hok HC HT2 HL) as (s2 & E2 & Hi2).
      rewrite E2. cbn [tbind fst snd]. exists s2. now split.
Qed.

Lemma lookups_answered : forall qs h, sorter qs -> Forall op_ok h ->
  no_mixed_overlap h -> top_unused [] h -> N.of_nat (length h) <= 2 ^ 30 ->
  exists s, (s0 <~ tlb_init ;; tlb_run qs s0 h) = TOk (s, answers [] h).
Proof.
  intros qs h HS Hok HC HT HL.
  destruct (run_inv qs h [] tlb_zero HS inv_zero Hok HC HT HL) as (s & E & _).
  exists s. exact E.
Qed.

(** A lookup in a page that ends at 2^64 aborts. *)
Lemma get_top : forall h s ea, inv h s -> ea < 2 ^ 64 -> forall page size,
  latest h ea = Some (page, size) -> (ea / size + 1) * size = 2 ^ 64 ->
  tlb_ra_get s ea 1 = TErr TAssert.
Proof.
  intros h s ea (l & k & I) Hea page size EL Htop. unfold tlb_ra_get.
  change (N.land 1 TLB_FLAGS_RELOC =? 0) with false. cbv iota.
  set (s1 := mk_tlbs _ _ _ _ _).
  destruct I as (W & S & L & Z & I1 & I2).
  assert (S1 : shape s1 l k) by exact S.
  destruct (get_index_spec s1 l k ea 0 W S1) as (r & s' & Er & Hr); [lia|].
  rewrite Er. cbn [tbind]. apply I2 in EL as (p & Hp & Hpin & Ex).
  injection Ex as -> ->. destruct r as [i|].
  - destruct Hr as [_ (t & Et & Hin & ->)].
    assert (Gt : p_good (pg t)).
    { destruct W as [W _]. rewrite Forall_forall in W. apply W. eapply nth_error_In; eassumption. }
    assert (Hpt : p = pg t).
    { apply (unique_in (map pg l) ea); try assumption.
      - apply before_disj, W.
      - apply in_map. eapply nth_error_In; eassumption. }
    subst p. assert (Hns : tlb_arr s1 <> None).
    { intro Hn. destruct S1 as (_ & _ & S3). destruct (S3 Hn) as [-> _]. destruct i; discriminate. }
    assert (EA : arr (set_arr s1 (replace l i (hit t) ++ repeat zero_tlbe k))
                 = replace l i (hit t) ++ repeat zero_tlbe k).
    { unfold arr, set_arr. destruct (tlb_arr s1); [reflexivity|congruence]. }
    assert (En : nth_error (replace l i (hit t)) i = Some (hit t)).
    { clear - Et. revert i Et. induction l as [|x l IH]; intros i Et; [destruct i; discriminate|].
      destruct i; [reflexivity|]. cbn in *. now apply IH. }
    rewrite EA, (get_entry_app _ _ (Z.of_nat i) (hit t)) by (rewrite ?Nat2Z.id; try lia; exact En).
    cbn [tbind]. unfold tlb_translate. cbn [hit t_ea t_size].
    assert (G' : p_good (pg t)) by exact Gt.
    destruct Gt as (G1 & G2 & G3 & G4). assert (Hs := psize_pos _ G1).
    unfold p_in, p_ea, p_size in *. cbn [pg fst snd] in *.
    replace (t_ea t <=? ea) with true by lia. cbn [tassert tbind].
    assert (Hb : t_ea t = ea / t_size t * t_size t).
    { assert (Hd : ea / t_size t = t_ea t / t_size t) by (apply p_in_div; [lia|exact G2|exact Hin]).
      rewrite Hd. assert (Hx := N.div_mod (t_ea t) (t_size t)). lia. }
    rewrite (add_top t) by exact G'. replace (t_ea t + t_size t =? 2 ^ 64) with true by lia.
    replace (ea <? 0) with false by lia. reflexivity.
  - exfalso. destruct Hr as [_ Hno]. apply in_map_iff in Hp as (t & <- & Ht).
    apply In_nth_error in Ht as [i Hi]. apply (Hno i t); [lia|exact Hi|exact Hpin].
Qed.

Lemma top_lookup_aborts : forall qs h ea page size, sorter qs -> Forall op_ok h ->
  no_mixed_overlap h -> top_unused [] h -> N.of_nat (length h) <= 2 ^ 30 -> ea < 2 ^ 64 ->
  latest h ea = Some (page, size) -> (ea / size + 1) * size = 2 ^ 64 ->
  exists s outs, (s0 <~ tlb_init ;; tlb_run qs s0 h) = TOk (s, outs) /\
                 tlb_ra_get s ea 1 = TErr TAssert.
Proof.
  intros qs h ea page size HS Hok HC HT HL Hea EL Htop.
  destruct (run_inv qs h [] tlb_zero HS inv_zero Hok HC HT HL) as (s & E & Hi).
  exists s, (answers [] h). split; [exact E|]. now apply (get_top h s ea Hi Hea page size).
Qed.
