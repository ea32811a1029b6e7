(** Proofs about the report of the software TLB: whole histories, the text, tlb_exit. *)
Require Import NArith ZArith List Bool Permutation Lia Arith String Ascii.
Require Import ZifyBool ZifyN ZifyNat.
Require Import Verif.Word Verif.Bb_Spec Verif.Tlb_Model Verif.Tlb_Spec Verif.Tlb_Proofs.
Require Import Verif.Tlbdump_Model Verif.Tlbdump_Spec Verif.Tlbdump_Proofs Verif.Tlbdump_Proofs2.
Import ListNotations.
Local Open Scope N_scope.
Local Notation length := List.length.

Definition lk (o : op) : N := match o with OGet _ f => if N.odd f then 1 else 0 | _ => 0 end.
Definition un (a : option (N * N)) : N := match a with None => 1 | Some _ => 0 end.

Lemma run_ledger : forall qs h pre s, sorter qs -> inv pre s -> ledger pre (entries s) ->
  Forall op_ok h ->
  no_mixed_overlap (pre ++ h) -> top_unused pre h ->
  N.of_nat (length (pre ++ h)) <= 2 ^ 30 ->
  exists s', tlb_run qs s h = TOk (s', answers pre h) /\ inv (pre ++ h) s' /\
    ledger (pre ++ h) (entries s') /\
    tlb_translations s' = tlb_translations s + lookups h /\
    tlb_no_translation s' = tlb_no_translation s +
      N.of_nat (length (filter (fun a => match a with None => true | _ => false end) (answers pre h))) /\
    tlb_changes s' = tlb_changes s + replaced pre h.
Proof.
  intros qs. induction h as [|o h IH]; intros pre s HS Hi HLg Hok HC HT HL.
  - exists s. rewrite app_nil_r. cbn. rewrite !N.add_0_r. repeat split; try assumption; apply HLg.
  - apply Forall_cons_iff in Hok as [Ho Hok].
    replace (pre ++ o :: h) with ((pre ++ [o]) ++ h) in * by now rewrite <- app_assoc.
    assert (HL' : N.of_nat (length pre) < 2 ^ 30).
    { clear - HL. rewrite !app_length in HL. cbn [List.length] in HL.
      change (2 ^ 30) with 1073741824 in *. lia. }
    assert (HL63 : N.of_nat (length pre) < 2 ^ 63).
    { eapply N.lt_trans; [exact HL'|reflexivity]. }
    destruct o as [ea flags ra sz|ea flags]; cbn [tlb_run answers].
    + destruct (set_step qs pre s ea flags ra sz HS Hi Ho) as (s1 & E1 & Hi1);
        [eapply no_mixed_app; exact HC|exact HL'|].
      rewrite E1. cbn [tbind].
      assert (HX : ledger (pre ++ [OSet ea flags ra sz]) (entries s1) /\
                   tlb_translations s1 = tlb_translations s /\
                   tlb_no_translation s1 = tlb_no_translation s /\
                   tlb_changes s1 = tlb_changes s + replaces pre (OSet ea flags ra sz)).
      { destruct (N.odd flags) eqn:Eo.
        2:{ unfold tlb_ra_set in E1. rewrite flags_odd, Eo in E1. cbn [negb] in E1.
            injection E1 as <-. split.
            - destruct HLg as [G1 G2]. split.
              + intros t Ht. rewrite account_off by exact Eo. now apply G1.
              + intros b z x. rewrite account_off by exact Eo. apply G2.
            - unfold replaces. rewrite Eo. cbn [andb].
              destruct (account _ _ _) as [[[? ?] ?]|]; rewrite N.add_0_r; repeat split. }
        destruct (Ho Eo) as (-> & He & Hr & Hsz).
        destruct Hi as (l & k & W & SH & _ & _ & I1 & _).
        assert (El := entries_shape s l k SH). rewrite El in HLg.
        assert (EF := set_effect qs s l k ea ra sz s1 HS W SH Hsz He Hr E1). cbv zeta in EF.
        assert (HI : forall t, In t l -> is_set pre (t_ea t) (t_size t)).
        { intros t Ht. apply (I1 (pg t)). now apply in_map. }
        assert (HC1 := no_mixed_app _ _ HC).
        assert (LS := fun ch => ledger_set pre l (entries s1) ea ra sz ch W HLg HL63 Hsz HC1 HI).
        cbv zeta in LS. unfold counters in EF.
        destruct EF as [(l1 & t & l2 & A1 & A2 & A3 & A4 & A5)|[(l1 & t & l2 & A1 & A2 & A3 & A4 & A5)|(A1 & A2 & A3)]].
        - destruct (LS 0) as [L1 L2]; [left; exists l1, t, l2; exact (conj A1 (conj A2 (conj A3 (conj A4 eq_refl))))|].
          injection A5 as -> -> ->. rewrite <- L2, N.add_0_r. repeat split; apply L1.
        - destruct (LS 1) as [L1 L2]; [right; left; exists l1, t, l2; exact (conj A1 (conj A2 (conj A3 (conj A4 eq_refl))))|].
          injection A5 as -> -> ->. rewrite <- L2. repeat split; apply L1.
        - destruct (LS 0) as [L1 L2]; [right; right; exact (conj A1 (conj A2 eq_refl))|].
          injection A3 as -> -> ->. rewrite <- L2, N.add_0_r. repeat split; apply L1. }
      destruct HX as (X1 & X2 & X3 & X4).
      destruct (IH _ s1 HS Hi1 X1 Hok HC HT HL) as (s2 & E2 & Hi2 & Y1 & Y2 & Y3 & Y4).
      exists s2. split; [exact E2|]. split; [exact Hi2|]. split; [exact Y1|].
      split; [rewrite Y2, X2; reflexivity|]. split; [rewrite Y3, X3; reflexivity|].
      rewrite Y4, X4. cbn [replaced]. unfold replaces. lia.
    + destruct HT as [HT1 HT2].
      destruct (get_step pre s ea flags Hi Ho HT1) as (s1 & E1 & Hi1).
      rewrite E1. cbn [tbind fst snd].
      assert (HX : ledger (pre ++ [OGet ea flags]) (entries s1) /\
                   tlb_translations s1 = tlb_translations s + lk (OGet ea flags) /\
                   tlb_no_translation s1 = tlb_no_translation s + un (answer pre ea flags) /\
                   tlb_changes s1 = tlb_changes s).
      { destruct (N.odd flags) eqn:Eo.
        2:{ unfold tlb_ra_get in E1. rewrite flags_odd, Eo in E1. cbn [negb] in E1.
            injection E1 as E1 <-. split.
            - destruct HLg as [G1 G2]. split.
              + intros t Ht. rewrite account_off by exact Eo. now apply G1.
              + intros b z x. rewrite account_off by exact Eo. apply G2.
            - unfold lk, answer. rewrite Eo. cbn [un]. rewrite !N.add_0_r. repeat split. }
        rewrite (proj2 Ho Eo) in *.
        destruct Hi as (l & k & W & SH & _).
        assert (El := entries_shape s l k SH). rewrite El in HLg.
        assert (LG := ledger_get pre l (entries s1) ea W HLg HL63).
        destruct (get_effect s l k ea _ s1 W SH E1)
          as [(l1 & t & l2 & A1 & A2 & A3 & A4 & A5)|(A1 & A2 & A3 & A4)]; unfold counters in *.
        - injection A5 as -> -> ->. split; [apply LG; left; exists l1, t, l2; exact (conj A1 (conj A2 A3))|].
          split; [reflexivity|]. split; [|reflexivity].
          destruct (answer pre ea 1); [cbn; now rewrite N.add_0_r|congruence].
        - injection A4 as -> -> ->. split; [apply LG; right; now split|].
          split; [reflexivity|]. split; [|reflexivity]. rewrite A3. reflexivity. }
      destruct HX as (X1 & X2 & X3 & X4).
      destruct (IH _ s1 HS Hi1 X1 Hok HC HT2 HL) as (s2 & E2 & Hi2 & Y1 & Y2 & Y3 & Y4).
      rewrite E2. cbn [tbind fst snd]. exists s2. split; [reflexivity|]. split; [exact Hi2|].
      split; [exact Y1|]. split.
      * rewrite Y2, X2. unfold lookups, lk. cbn [filter].
        destruct (N.odd flags); cbn [List.length]; lia.
      * split; [|rewrite Y4, X4; cbn [replaced]; lia].
        rewrite Y3, X3. cbn [filter]. destruct (answer pre ea flags); cbn [un List.length]; lia.
Qed.

Definition row_of (t : tlbe) : row := mk_row (t_ea t) (t_ra t) (t_size t) (t_miss t) (t_hit t).

Lemma ledger_table : forall h l, wf l -> ledger h l -> table h (map row_of l).
Proof.
  intros h l W [L1 L2]. split.
  - destruct W as [_ W]. clear - W. induction l as [|t l IH]; [exact I|].
    cbn [map ordered] in *. destruct W as [W1 W2]. split; [|now apply IH].
    rewrite Forall_map in *. exact W1.
  - intros x. split.
    + intros Hx. apply in_map_iff in Hx as (t & <- & Ht). now apply L1.
    + intros E. destruct (L2 _ _ _ E) as (t & Ht & Eb & Es). apply in_map_iff. exists t.
      split; [|exact Ht]. assert (At := L1 t Ht). rewrite Eb, Es, E in At.
      destruct x as [a b c d e]. cbn in *. injection At as -> -> ->. unfold row_of. congruence.
Qed.

(** ** The text *)
Lemma dump_rows_text : forall l z i, dump_rows (l ++ z) (N.of_nat i) (length l - i)
  = TOk (rows_text dec dec02 hex8 hex16 (N.of_nat i) (map row_of (skipn i l))).
Proof.
  intros l z i. remember (length l - i)%nat as n eqn:En. revert i En.
  induction n as [|n IH]; intros i En.
  - rewrite skipn_all2 by lia. reflexivity.
  - destruct (nth_error l i) as [t|] eqn:Et.
    2:{ apply nth_error_None in Et. lia. }
    cbn [dump_rows]. rewrite (get_entry_app l z (Z.of_N (N.of_nat i)) t);
      [|lia|now replace (Z.to_nat (Z.of_N (N.of_nat i))) with i by lia].
    cbn [tbind]. replace (N.of_nat i + 1) with (N.of_nat (S i)) by lia.
    rewrite (IH (S i)) by lia. cbn [tbind].
    assert (Es : skipn i l = t :: skipn (S i) l).
    { clear - Et. revert i Et. induction l as [|x l IH]; intros i Et; [destruct i; discriminate|].
      destruct i as [|i]; [injection Et as ->; reflexivity|]. cbn in *. now apply IH. }
    rewrite Es. cbn [map rows_text]. replace (N.of_nat i + 1) with (N.of_nat (S i)) by lia.
    unfold tag, tlb_print, newline, row_of. cbn [codes r_ea r_ra r_size r_miss r_hit].
    f_equal. rewrite <- !app_assoc. reflexivity.
Qed.

Lemma dump_report : forall s l k, shape s l k ->
  tlb_dump s = TOk (report dec dec02 hex8 hex16 (map row_of l) (tlb_no_translation s)
                           (tlb_translations s) (tlb_changes s)).
Proof.
  intros s l k (Ha & Hn & _). unfold tlb_dump. rewrite Ha, Hn, Nat2N.id.
  assert (E := dump_rows_text l (repeat zero_tlbe k) 0). rewrite Nat.sub_0_r in E.
  change (N.of_nat 0) with 0 in E. rewrite E. cbn [tbind skipn]. reflexivity.
Qed.

Lemma dumped : forall qs h, sorter qs -> Forall op_ok h ->
  no_mixed_overlap h -> top_unused [] h -> N.of_nat (length h) <= 2 ^ 30 ->
  exists s rows, (s0 <~ tlb_init ;; tlb_run qs s0 h) = TOk (s, answers [] h) /\
    table h rows /\
    tlb_dump s = TOk (report dec dec02 hex8 hex16 rows (unanswered h) (lookups h) (replaced [] h)).
Proof.
  intros qs h HS Hok HC HT HL.
  assert (L0 : ledger [] (entries tlb_zero)) by (split; [intros t []|discriminate]).
  destruct (run_ledger qs h [] tlb_zero HS inv_zero L0 Hok HC HT HL)
    as (s & E & (l & k & W & SH & _) & LG & E1 & E2 & E3).
  cbn [app] in *. rewrite (entries_shape s l k SH) in LG.
  exists s, (map row_of l). split; [exact E|]. split; [now apply ledger_table|].
  rewrite (dump_report s l k SH), E1, E2, E3. reflexivity.
Qed.

(** ** tlb_exit *)
Definition face (t : tlbe) : N * N * N * bool := (t_ea t, t_ra t, t_size t, t_valid t).
Definition alike (l l' : list tlbe) : Prop := map face l = map face l'.

Lemma alike_length : forall l l', alike l l' -> length l = length l'.
Proof. intros l l' H. rewrite <- (map_length face l), H. apply map_length. Qed.

Lemma alike_nth : forall l l' i, alike l l' ->
  match nth_error l i, nth_error l' i with
  | Some t, Some t' => face t = face t' | None, None => True | _, _ => False end.
Proof.
  intros l l' i H. assert (E := f_equal (fun x => nth_error x i) H). cbn in E.
  rewrite !nth_error_map in E. destruct (nth_error l i), (nth_error l' i); cbn in E; try congruence.
  exact I.
Qed.

Lemma compare_face : forall ea t t', face t = face t' -> tlb_compare ea t = tlb_compare ea t'.
Proof.
  intros ea t t' H. injection H as H1 H2 H3 H4. unfold tlb_compare, entry_ok.
  now rewrite H1, H2, H3, H4.
Qed.

Lemma search_face : forall l l' ea, alike l l' -> forall fuel a b,
  search fuel l ea a b = search fuel l' ea a b.
Proof.
  intros l l' ea H. induction fuel as [|fuel IH]; intros a b; [reflexivity|].
  cbn [search]. destruct (Z.leb a b); [|reflexivity]. unfold get_entry.
  destruct (Z.ltb (Z.div (a + b) 2) 0); [reflexivity|].
  assert (Hn := alike_nth l l' (Z.to_nat (Z.div (a + b) 2)) H).
  destruct (nth_error l _) as [t|], (nth_error l' _) as [t'|]; try contradiction; [|reflexivity].
  cbn [tbind]. rewrite (compare_face ea t t' Hn). now rewrite !IH.
Qed.

Lemma no_match_face : forall s s' ea a, alike (arr s) (arr s') -> tlb_next s = tlb_next s' ->
  no_match s ea a = no_match s' ea a.
Proof.
  intros s s' ea a H N. unfold no_match, tlb_get_index.
  rewrite <- N, <- (alike_length _ _ H), <- (search_face _ _ ea H).
  destruct (search _ _ _ _ _) as [[i|]|]; cbn [tbind]; try reflexivity.
  assert (Hn := alike_nth _ _ i H).
  destruct (nth_error (arr s) i), (nth_error (arr s') i); try contradiction; reflexivity.
Qed.

Lemma overlaps_face : forall s s', alike (arr s) (arr s') -> tlb_next s = tlb_next s' ->
  forall n i, check_overlaps s i n = check_overlaps s' i n.
Proof.
  intros s s' H N. induction n as [|n IH]; intros i; [reflexivity|]. cbn [check_overlaps].
  unfold get_entry. replace (Z.ltb (Z.of_nat i) 0) with false by lia.
  assert (Hn := alike_nth _ _ (Z.to_nat (Z.of_nat i)) H).
  destruct (nth_error (arr s) _) as [t|], (nth_error (arr s') _) as [t'|]; try contradiction; [|reflexivity].
  cbn [tbind]. injection Hn as H1 H2 H3 H4. rewrite H1, H3.
  rewrite !(no_match_face s s' _ _ H N), IH. reflexivity.
Qed.

Lemma no_holes_face : forall l l' b, alike l l' -> no_holes b l = no_holes b l'.
Proof.
  unfold alike. induction l as [|t l IH]; intros [|t' l'] b H; cbn [map] in H; try discriminate H;
    [reflexivity|]. assert (H1 : face t = face t') by congruence.
  assert (H2 : map face l = map face l') by congruence.
  cbn [no_holes]. injection H1 as _ _ _ E. rewrite E. now rewrite (IH l' _ H2).
Qed.

Lemma validate_face : forall s s', alike (arr s) (arr s') -> tlb_next s = tlb_next s' ->
  tlb_validate s = tlb_validate s'.
Proof.
  intros s s' H N. unfold tlb_validate, tlb_size.
  rewrite (alike_length _ _ H), N. rewrite (overlaps_face s s' H N), (no_holes_face _ _ _ H).
  reflexivity.
Qed.

Lemma replace_alike : forall l i t t', nth_error l i = Some t -> face t' = face t ->
  alike (replace l i t') l.
Proof. intros l i t t' E F. unfold alike. now apply (map_replace _ face l i t t'). Qed.

(** Slots past the last entry are not valid. *)
Definition clean (s : tlbs) : Prop :=
  (N.to_nat (tlb_next s) <= length (arr s))%nat /\
  Forall (fun t => t_valid t = false) (skipn (N.to_nat (tlb_next s)) (arr s)).
Definition sound (s : tlbs) : Prop := tlb_validate s = TOk tt /\ clean s.

Lemma alike_clean : forall s s', alike (arr s') (arr s) -> tlb_next s' = tlb_next s ->
  clean s -> clean s'.
Proof.
  intros s s' H N [C1 C2]. unfold clean. rewrite (alike_length _ _ H), N. split; [exact C1|].
  assert (E : map face (skipn (N.to_nat (tlb_next s)) (arr s'))
            = map face (skipn (N.to_nat (tlb_next s)) (arr s))).
  { rewrite <- !skipn_map. now rewrite H. }
  rewrite Forall_forall in *. intros t Ht.
  assert (Hf : In (face t) (map face (skipn (N.to_nat (tlb_next s)) (arr s))))
    by (rewrite <- E; now apply in_map).
  apply in_map_iff in Hf as (t' & F & Ht'). injection F as _ _ _ F. rewrite <- F. now apply C2.
Qed.

Lemma alike_sound : forall s s', alike (arr s') (arr s) -> tlb_next s' = tlb_next s ->
  sound s -> sound s'.
Proof.
  intros s s' H N [V C]. split; [rewrite <- V; now apply validate_face|now apply (alike_clean s)].
Qed.

Lemma search_le : forall l ea fuel a b i, search fuel l ea a b = TOk (Some i) ->
  (0 <= a)%Z -> (Z.of_nat i <= b)%Z.
Proof.
  intros l ea. induction fuel as [|fuel IH]; intros a b i H Ha; cbn [search] in H.
  - destruct (Z.leb a b); discriminate H.
  - destruct (Z.leb a b) eqn:E; [|discriminate H].
    assert (Hm : (a <= Z.div (a + b) 2 <= b)%Z).
    { split; [apply Z.div_le_lower_bound; lia|apply Z.div_le_upper_bound; lia]. }
    set (m := Z.div (a + b) 2) in *. clearbody m.
    destruct (get_entry l m); cbn [tbind] in H; [|discriminate H].
    destruct (tlb_compare ea a0) as [r|]; cbn [tbind] in H; [|discriminate H].
    destruct (Z.ltb r 0); [destruct (Z.eqb a b); [discriminate H|apply IH in H; lia]|].
    destruct (Z.ltb 0 r); [destruct (Z.eqb a b); [discriminate H|apply IH in H; lia]|].
    injection H as <-. lia.
Qed.

Lemma index_alike : forall s ea i s', tlb_get_index s ea 0 = TOk (i, s') ->
  alike (arr s') (arr s) /\ tlb_next s' = tlb_next s /\
  match i with Some i => (i < N.to_nat (tlb_next s))%nat | None => True end.
Proof.
  intros s ea i s'. unfold tlb_get_index.
  destruct (search _ _ _ _ _) as [[j|]|] eqn:ES; cbn [tbind]; try discriminate.
  - apply search_le in ES; [|lia].
    destruct (nth_error (arr s) j) as [t|] eqn:Et; [|discriminate]. intros [= <- <-].
    split; [|split; [reflexivity|lia]]. rewrite set_arr_arr.
    + apply (replace_alike (arr s) j t); [exact Et|reflexivity].
    + intro Hn. unfold arr in Et. rewrite Hn in Et. destruct j; discriminate Et.
  - intros [= <- <-]. now split.
Qed.

Lemma get_sound : forall s ea f x s', sound s -> tlb_ra_get s ea f = TOk (x, s') -> sound s'.
Proof.
  intros s ea f x s' V. unfold tlb_ra_get. destruct (_ =? 0); [intros [= <- <-]; exact V|].
  set (s1 := mk_tlbs _ _ _ _ _). destruct (tlb_get_index s1 ea 0) as [[r s2]|] eqn:E;
    cbn [tbind]; [|discriminate].
  apply index_alike in E as (E1 & E2 & _).
  assert (V2 : sound s2) by (apply (alike_sound s); [exact E1|exact E2|exact V]).
  destruct r as [i|].
  - destruct (get_entry _ _); cbn [tbind]; [|discriminate].
    destruct (tlb_translate _ _ _); cbn [tbind]; [|discriminate]. intros [= <- <-]. exact V2.
  - intros [= <- <-]. apply (alike_sound s2); [reflexivity|reflexivity|exact V2].
Qed.

Lemma skipn_replace : forall l i t n, (i < n)%nat -> (i < length l)%nat ->
  skipn n (replace l i t) = skipn n l.
Proof.
  induction l as [|x l IH]; intros i t n H H'; [cbn in H'; lia|].
  destruct n as [|n]; [lia|]. destruct i as [|i]; [reflexivity|].
  unfold replace. cbn [firstn app skipn]. apply IH; cbn in H'; lia.
Qed.

Lemma replace_length : forall l i t, (i < length l)%nat -> length (replace l i t) = length l.
Proof.
  intros l i t H. unfold replace. rewrite app_length. cbn [List.length].
  rewrite firstn_length, skipn_length. lia.
Qed.

Lemma sorted_tail : forall qs a n, sorter qs -> (n <= length a)%nat ->
  skipn n (qs tlb_compare_ea (firstn n a) ++ skipn n a) = skipn n a /\
  length (qs tlb_compare_ea (firstn n a) ++ skipn n a) = length a.
Proof.
  intros qs a n HS Hn. destruct (HS tlb_compare_ea (firstn n a) compare_ea_ok) as [P _].
  assert (L := Permutation_length P). rewrite firstn_length, Nat.min_l in L by exact Hn.
  split.
  - rewrite skipn_app, skipn_all2, <- L, Nat.sub_diag by lia. reflexivity.
  - rewrite app_length, <- L, skipn_length. lia.
Qed.

Lemma set_sound : forall qs s ea f r sz s', sorter qs -> sound s ->
  tlb_ra_set qs s ea f r sz = TOk s' -> sound s'.
Proof.
  intros qs s ea f r sz s' HS V. unfold tlb_ra_set. destruct (_ =? 0); [intros [= <-]; exact V|].
  destruct (pagesize_ok sz); cbn [tassert tbind]; [|discriminate].
  destruct (flags_ok f); cbn [tassert tbind]; [|discriminate].
  destruct (tlb_get_index s ea 0) as [[x s1]|] eqn:E; cbn [tbind]; [|discriminate].
  apply index_alike in E as (E1 & E2 & E3).
  assert (V1 : sound s1) by now apply (alike_sound s).
  set (tn := mk_tlbe _ _ _ _ _ _).
  destruct x as [i|]; cbn [tbind].
  - unfold get_entry. replace (Z.ltb (Z.of_nat i) 0) with false by lia. rewrite Nat2Z.id.
    destruct (nth_error (arr s1) i) as [t|] eqn:Et; cbn [tbind]; [|discriminate].
    assert (Hns : tlb_arr s1 <> None).
    { intro Hn. unfold arr in Et. rewrite Hn in Et. destruct i; discriminate Et. }
    assert (Hi : (i < length (arr s1))%nat) by (apply nth_error_Some; congruence).
    destruct (tlb_equal tn t).
    + intros [= <-]. apply (alike_sound s1); [|reflexivity|exact V1].
      rewrite set_arr_arr by exact Hns.
      apply (replace_alike (arr s1) i t); [exact Et|reflexivity].
    + cbv zeta. set (s4 := mk_tlbs _ _ _ _ _).
      destruct (tlb_validate s4) as [[]|] eqn:V4; cbn [tbind]; [|discriminate]. intros [= <-].
      split; [exact V4|]. destruct V1 as [_ [C1 C2]]. 
      assert (A4 : arr s4 = qs tlb_compare_ea (firstn (N.to_nat (tlb_next s1)) (replace (arr s1) i tn))
                            ++ skipn (N.to_nat (tlb_next s1)) (replace (arr s1) i tn)).
      { unfold s4, arr at 1. cbn [tlb_arr]. destruct (tlb_arr s1); [reflexivity|congruence]. }
      unfold clean. rewrite A4. change (tlb_next s4) with (tlb_next s1).
      assert (L := replace_length (arr s1) i tn Hi).
      destruct (sorted_tail qs (replace (arr s1) i tn) (N.to_nat (tlb_next s1)) HS) as [T1 T2];
        [rewrite L; exact C1|].
      rewrite T1, T2, L. split; [exact C1|].
      rewrite skipn_replace; [exact C2|rewrite E2; exact E3|exact Hi].
  - destruct (if tlb_size s1 =? tlb_next s1 then tlb_allocate s1 else TOk s1) as [s2|] eqn:EA;
      cbn [tbind]; [|discriminate].
    assert (C : clean s2 /\ tlb_next s2 = tlb_next s1).
    { destruct V1 as [_ [C1 C2]]. destruct (tlb_size s1 =? tlb_next s1).
      - apply allocate_effect in EA as ((k & A1) & A2 & _). split; [|exact A2].
        unfold clean. rewrite A1, A2, app_length, skipn_app. split; [lia|].
        apply Forall_app. split; [exact C2|]. apply Forall_forall. intros t Ht.
        apply (fun H => In_nth_error _ _ H) in Ht as [j Hj].
        assert (Ht : In t (repeat zero_tlbe k)).
        { rewrite <- (firstn_skipn (N.to_nat (tlb_next s1) - length (arr s1)) (repeat zero_tlbe k)).
          apply in_app_iff. right. eapply nth_error_In; eassumption. }
        apply repeat_spec in Ht. now subst t.
      - injection EA as <-. split; [now split|reflexivity]. }
    destruct C as [[C1 C2] EN].
    set (s3 := mk_tlbs _ _ _ _ _).
    destruct (get_entry (arr s3) _) as [t|] eqn:EG; cbn [tbind]; [|discriminate].
    unfold get_entry in EG. change (arr s3) with (arr s2) in *.
    replace (Z.ltb (Z.of_nat (N.to_nat (tlb_next s1))) 0) with false in EG by lia.
    rewrite Nat2Z.id in EG.
    destruct (nth_error (arr s2) (N.to_nat (tlb_next s1))) as [t'|] eqn:Et; [|discriminate EG].
    injection EG as ->.
    assert (Hi : (N.to_nat (tlb_next s1) < length (arr s2))%nat) by (apply nth_error_Some; congruence).
    assert (Es : skipn (N.to_nat (tlb_next s2)) (arr s2)
               = t :: skipn (S (N.to_nat (tlb_next s2))) (arr s2)).
    { rewrite EN. clear - Et. revert Et. generalize (N.to_nat (tlb_next s1)) as i.
      induction (arr s2) as [|y l IH]; intros i Et; [destruct i; discriminate|].
      destruct i as [|i]; [injection Et as ->; reflexivity|]. cbn [nth_error] in Et.
      change (skipn (S i) (y :: l)) with (skipn i l). rewrite (IH i Et). reflexivity. }
    rewrite Es in C2. apply Forall_cons_iff in C2 as [Hv C2].
    replace (tlb_equal tn t) with false
      by (unfold tlb_equal; rewrite Hv; cbn [tn t_valid Bool.eqb]; now rewrite !andb_false_r).
    cbv zeta. set (s4 := mk_tlbs _ _ _ _ _).
    destruct (tlb_validate s4) as [[]|] eqn:V4; cbn [tbind]; [|discriminate]. intros [= <-].
    split; [exact V4|]. 
    assert (A4 : arr s4 = qs tlb_compare_ea (firstn (N.to_nat (tlb_next s2 + 1)) (replace (arr s2) (N.to_nat (tlb_next s1)) tn))
                          ++ skipn (N.to_nat (tlb_next s2 + 1)) (replace (arr s2) (N.to_nat (tlb_next s1)) tn)).
    { unfold s4, s3, arr at 1. cbn [tlb_arr tlb_next]. destruct (tlb_arr s2) eqn:EA2; [reflexivity|].
      unfold arr in Hi. rewrite EA2 in Hi. cbn in Hi. lia. }
    unfold clean. rewrite A4. change (tlb_next s4) with (tlb_next s2 + 1).
    assert (L := replace_length (arr s2) (N.to_nat (tlb_next s1)) tn Hi).
    destruct (sorted_tail qs (replace (arr s2) (N.to_nat (tlb_next s1)) tn) (N.to_nat (tlb_next s2 + 1)) HS)
      as [T1 T2]; [rewrite L; lia|].
    rewrite T1, T2, L. split; [lia|].
    rewrite skipn_replace by lia. replace (N.to_nat (tlb_next s2 + 1)) with (S (N.to_nat (tlb_next s2))) by lia.
    exact C2.
Qed.

Lemma run_sound : forall qs h s s' outs, sorter qs -> sound s ->
  tlb_run qs s h = TOk (s', outs) -> sound s'.
Proof.
  intros qs. induction h as [|o h IH]; intros s s' outs HS V E; cbn [tlb_run] in E.
  - injection E as <- <-. exact V.
  - destruct o as [ea f r sz|ea f].
    + destruct (tlb_ra_set qs s ea f r sz) as [s1|] eqn:E1; cbn [tbind] in E; [|discriminate E].
      apply (IH s1 s' outs); [exact HS|now apply (set_sound qs s ea f r sz)|exact E].
    + destruct (tlb_ra_get s ea f) as [[x s1]|] eqn:E1; cbn [tbind fst snd] in E; [|discriminate E].
      destruct (tlb_run qs s1 h) as [[s2 o2]|] eqn:E2; cbn [tbind fst snd] in E; [|discriminate E].
      injection E as <- <-.
      apply (IH s1 s2 o2); [exact HS|now apply (get_sound s ea f x)|exact E2].
Qed.

Lemma exits : forall qs h s outs, sorter qs ->
  (s0 <~ tlb_init ;; tlb_run qs s0 h) = TOk (s, outs) -> tlb_exit s = TOk tt.
Proof.
  intros qs h s outs HS E. change (tlb_run qs tlb_zero h = TOk (s, outs)) in E.
  apply (run_sound qs h tlb_zero s outs HS) in E; [apply E|].
  split; [reflexivity|]. split; [cbn; lia|constructor].
Qed.
