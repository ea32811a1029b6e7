(** The caches follow the page tables: lookups and insertions of one step. *)
Require Import NArith ZArith List Bool Lia.
Require Import ZifyBool ZifyN ZifyNat.
Require Import Verif.Word Verif.Codec_Types Verif.Pwc_Model Verif.Pwc_Spec Verif.Pwc_Proofs.
Require Import Verif.Xlate_Model Verif.Xlate_Spec Verif.Xlate_Proofs Verif.Xlate_Full Verif.Resume_Spec.
Import ListNotations.
Local Open Scope N_scope.

Lemma same_ids_sym : forall x y, same_ids x y = true -> same_ids y x = true.
Proof. unfold same_ids. intros x y H. lia. Qed.
Lemma same_ids_trans : forall x y z, same_ids x y = true -> same_ids y z = true -> same_ids x z = true.
Proof. unfold same_ids. intros x y z H1 H2. lia. Qed.
Lemma same_ids_refl : forall x, same_ids x x = true.
Proof. unfold same_ids. intros x. lia. Qed.
Lemma same_dir_refl : forall l x, same_dir l x l x = true.
Proof. intros l x. unfold same_dir. rewrite same_ids_refl, !N.eqb_refl. reflexivity. Qed.
Lemma same_entry_refl : forall l x, same_entry l x l x = true.
Proof. intros l x. unfold same_entry. rewrite same_dir_refl, N.eqb_refl. reflexivity. Qed.
Lemma same_page_refl : forall l x, same_page l x l x = true.
Proof. intros l x. unfold same_page. rewrite same_ids_refl, !N.eqb_refl. reflexivity. Qed.
Lemma same_entry_trans : forall l x y z, same_entry l x l y = true -> same_entry l y l z = true -> same_entry l x l z = true.
Proof.
  intros l x y z H1 H2. unfold same_entry, same_dir in *.
  apply andb_prop in H1 as [H1 A1]. apply andb_prop in H1 as [H1 B1]. apply andb_prop in H1 as [_ C1].
  apply andb_prop in H2 as [H2 A2]. apply andb_prop in H2 as [H2 B2]. apply andb_prop in H2 as [_ C2].
  rewrite N.eqb_refl, (same_ids_trans x y z C1 C2). cbn [andb].
  apply N.eqb_eq in A1, B1, A2, B2. rewrite A1, B1, A2, B2, !N.eqb_refl. reflexivity.
Qed.
Lemma same_page_trans : forall l x y z, same_page l x l y = true -> same_page l y l z = true -> same_page l x l z = true.
Proof.
  intros l x y z H1 H2. unfold same_page in *.
  apply andb_prop in H1 as [H1 A1]. apply andb_prop in H1 as [_ C1].
  apply andb_prop in H2 as [H2 A2]. apply andb_prop in H2 as [_ C2].
  rewrite N.eqb_refl, (same_ids_trans x y z C1 C2). cbn [andb].
  apply N.eqb_eq in A1, A2. rewrite A1, A2, !N.eqb_refl. reflexivity.
Qed.

Section CACHES.
  Variable T : tables.
  Hypothesis HT : tables_ok T.

  Definition leaf_of (l : N) (y : xaddr) : bool :=
    if l =? XLATE_PGD then false
    else if (l =? XLATE_PUD) || (l =? XLATE_PMD) then tb_leaf T l y else true.

  Definition faithful (p : pwc) : Prop :=
    (forall l y r f, level_ok l -> dir_get (page_walk_cache p) l y = Some (Some (r, f)) ->
       r = entry_at T l y /\ (f = 0 \/ f = if leaf_of l y then 1 else 2)
       /\ (l = XLATE_4K_PTE \/ l = XLATE_64K_PTE -> l = tb_kind T y))
    /\ (forall s y r, shift_ok s -> rpn_get (tlb_cache p) s y = Some (Some r) ->
       r = tb_page T s y * 2 ^ s + xa_address y mod 2 ^ s).
  Definition known (p : pwc) (l : N) (y : xaddr) : Prop :=
    exists r f, dir_get (page_walk_cache p) l y = Some (Some (r, f)) /\ f <> 0.
  Definition known_page (p : pwc) (s : N) (y : xaddr) : Prop :=
    exists r, rpn_get (tlb_cache p) s y = Some (Some r).
  Definition le (p p' : pwc) : Prop :=
    (forall l y, level_ok l -> known p l y -> known p' l y)
    /\ (forall s y, shift_ok s -> known_page p s y -> known_page p' s y).
  Definition sure (p : pwc) (l : N) (y : xaddr) : Prop :=
    forall z, same_entry l y l z = true -> known p l z.
  Definition sure_page (p : pwc) (s : N) (y : xaddr) : Prop :=
    forall z, same_page s y s z = true -> known_page p s z.
  Lemma le_refl : forall p, le p p.
  Proof. intro p. split; auto. Qed.
  Lemma le_trans : forall p q r, le p q -> le q r -> le p r.
  Proof. intros p q r [A B] [C D]. split; auto. Qed.
  Lemma sure_le : forall p p' l y, level_ok l -> le p p' -> sure p l y -> sure p' l y.
  Proof. intros p p' l y Hl [A _] H z Hz. apply A; [exact Hl|now apply H]. Qed.
  Lemma sure_page_le : forall p p' s y, shift_ok s -> le p p' -> sure_page p s y -> sure_page p' s y.
  Proof. intros p p' s y Hl [_ A] H z Hz. apply A; [exact Hl|now apply H]. Qed.

  Lemma entry_lt : forall l a, entry l a < 2 ^ width l.
  Proof. intros l a. unfold entry. apply N.mod_lt. apply N.pow_nonzero. lia. Qed.
  Lemma entry_at_bound : forall l y, level_ok l -> entry_at T l y < 2 ^ 64.
  Proof.
    intros l y Hl. destruct HT as (_ & H & _). specialize (H l y Hl). unfold entry_at.
    pose proof (entry_lt l (xa_address y)). lia.
  Qed.
  Lemma leaf_same : forall l x y, level_ok l -> same_entry l x l y = true -> leaf_of l x = leaf_of l y.
  Proof.
    intros l x y Hl H. unfold leaf_of. destruct (l =? XLATE_PGD); [reflexivity|].
    destruct (_ || _); [|reflexivity]. destruct HT as (_ & _ & HL & _). now apply HL.
  Qed.
  Lemma entry_at_moves : forall l x y, level_ok l -> same_dir l x l y = true ->
    Z.to_N ((Z.of_N (entry_at T l x) + 8 * (Z.of_N (entry l (xa_address y)) - Z.of_N (entry l (xa_address x)))) mod 2 ^ 64)
    = entry_at T l y.
  Proof.
    intros l x y Hl H. pose proof (entry_at_bound l y Hl) as Hb.
    assert (E : tb_base T l x = tb_base T l y) by (destruct HT as (HB & _); now apply HB).
    unfold entry_at in *. rewrite E.
    replace (Z.of_N (tb_base T l y + 8 * entry l (xa_address x)) + 8 * (Z.of_N (entry l (xa_address y)) - Z.of_N (entry l (xa_address x))))%Z
      with (Z.of_N (tb_base T l y + 8 * entry l (xa_address y))) by lia.
    change (2 ^ 64)%Z with (Z.of_N (2 ^ 64)). rewrite Z.mod_small by lia. lia.
  Qed.

  (** Inserting a true step. *)
  Lemma insert_faithful : forall p l y, level_ok l -> (l = XLATE_4K_PTE \/ l = XLATE_64K_PTE -> l = tb_kind T y) ->
    faithful p ->
    exists p', pwc_insert p l y (entry_at T l y) (leaf_of l y) = Some p'
      /\ faithful p' /\ le p p' /\ sure p' l y.
  Proof.
    intros p l y Hl Hk [F1 F2]. unfold pwc_insert.
    destruct (dir_get_insert (page_walk_cache p) l y (entry_at T l y) (leaf_of l y) Hl (entry_at_bound l y Hl)) as (c' & -> & H).
    cbn [option_map]. eexists. split; [reflexivity|].
    assert (EL : forall l' z, same_dir l y l' z = true -> l' = l).
    { intros l' z H'. unfold same_dir in H'. lia. }
    split; [split|split; [split|]].
    - intros l' z r f Hl' E. cbn [page_walk_cache] in E. destruct (H l' z Hl') as (old & Eo & E').
      rewrite E' in E. clear E'. destruct (same_dir l y l' z) eqn:Ed.
      + assert (l' = l) by now apply (EL l' z). subst l'.
        assert (Hn : N.of_nat 0 = 0) by reflexivity.
        assert (Er : r = entry_at T l z /\ f = (if same_entry l y l z then (if leaf_of l y then 1 else 2) else match old with Some (_, f0) => f0 | None => 0 end)).
        { assert (E2 := f_equal (fun o => match o with Some (Some rf) => rf | _ => (0, 0) end) E). cbn beta iota in E2.
          rewrite (entry_at_moves l y z Hl' Ed) in E2. split.
          - exact (eq_sym (f_equal fst E2)).
          - exact (eq_sym (f_equal snd E2)). }
        destruct Er as [-> ->]. split; [reflexivity|]. split.
        * destruct (same_entry l y l z) eqn:Ee.
          -- right. now rewrite (leaf_same l y z Hl' Ee).
          -- destruct old as [[r0 f0]|]; [|now left]. apply (F1 l z r0 f0 Hl' Eo).
        * intro K. specialize (Hk K). destruct HT as (_ & _ & _ & _ & HK & _).
          rewrite Hk at 1. now apply (HK l).
      + injection E as ->. apply (F1 l' z r f Hl' Eo).
    - exact F2.
    - intros l' z Hl' (r & f & E & Hf). cbn [page_walk_cache]. destruct (H l' z Hl') as (old & Eo & E').
      rewrite E in Eo. injection Eo as <-. unfold known. cbn [page_walk_cache]. rewrite E'.
      destruct (same_dir l y l' z).
      + eexists. eexists. split; [reflexivity|]. destruct (same_entry l y l' z); [|exact Hf]. destruct (leaf_of l y); discriminate.
      + exists r, f. now split.
    - intros s z _ Hz. exact Hz.
    - intros z Hz. destruct (H l z Hl) as (old & Eo & E').
      assert (Ed : same_dir l y l z = true). { unfold same_entry in Hz. apply andb_prop in Hz as [Hz _]. exact Hz. }
      unfold known. cbn [page_walk_cache]. rewrite E', Ed, Hz. eexists. eexists. split; [reflexivity|]. destruct (leaf_of l y); discriminate.
  Qed.
  Lemma tlb_faithful : forall p s y r, shift_ok s -> r < 2 ^ 52 -> r / 2 ^ s = tb_page T s y -> faithful p ->
    exists p', pwc_tlb_insert p s y r = Some p' /\ faithful p' /\ le p p' /\ sure_page p' s y
      /\ page_walk_cache p' = page_walk_cache p.
  Proof.
    intros p s y r Hs Hb Hr [F1 F2]. unfold pwc_tlb_insert.
    destruct (rpn_get_insert (tlb_cache p) s y r Hs) as (c' & -> & H).
    cbn [option_map]. eexists. split; [reflexivity|].
    split; [split|split; [split|split]].
    - exact F1.
    - intros s' z r' Hs' E. cbn [tlb_cache] in E. rewrite H in E by exact Hs'.
      destruct (same_page s y s' z) eqn:Ep; [|now apply F2].
      assert (Er' := f_equal (fun o => match o with Some (Some v) => v | _ => 0 end) E). cbn beta iota in Er'. subst r'.
      assert (s' = s) by (unfold same_page in Ep; lia). subst s'.
      rewrite (N.mod_small r (2 ^ 52)) by exact Hb. rewrite Hr.
      destruct HT as (_ & _ & _ & _ & _ & HP & _). now rewrite (HP s y z Hs Ep).
    - intros l z _ Hz. exact Hz.
    - intros s' z Hs' [r' E]. unfold known_page. cbn [tlb_cache]. rewrite H by exact Hs'.
      destruct (same_page s y s' z); [eauto|]. eauto.
    - intros z Hz. unfold known_page. cbn [tlb_cache]. rewrite H by exact Hs. rewrite Hz. eauto.
    - reflexivity.
  Qed.
  Lemma rev_faithful : forall p s y r, shift_ok s -> faithful p ->
    exists p', pwc_reverse_insert p s y r = Some p' /\ faithful p' /\ le p p'.
  Proof.
    intros p s y r Hs F. unfold pwc_reverse_insert.
    destruct (rpn_get_insert (reverse_cache p) s y r Hs) as (c' & -> & H).
    cbn [option_map]. eexists. split; [reflexivity|]. split; [exact F|]. split; intros; assumption.
  Qed.
  (** Reading a known step. *)
  Lemma known_get : forall p l y, level_ok l -> faithful p -> known p l y ->
    pwc_get p l y = Some (Some (entry_at T l y, if leaf_of l y then 1 else 2)).
  Proof.
    intros p l y Hl [F1 _] (r & f & E & Hf). unfold pwc_get. rewrite E.
    destruct (F1 l y r f Hl E) as (-> & [->| ->] & _); [congruence|reflexivity].
  Qed.
  Lemma known_kind : forall p l y r f, l = XLATE_4K_PTE \/ l = XLATE_64K_PTE -> faithful p -> l <> tb_kind T y ->
    pwc_get p l y <> Some (Some (r, f)).
  Proof.
    intros p l y r f Hl [F1 _] Hk E. unfold pwc_get in E.
    destruct (F1 l y r f) as (_ & _ & K); [unfold level_ok; tauto|exact E|]. auto.
  Qed.
  Lemma known_page_get : forall p s y, shift_ok s -> faithful p -> known_page p s y ->
    pwc_tlb_get p s y = Some (Some (tb_page T s y * 2 ^ s + xa_address y mod 2 ^ s)).
  Proof.
    intros p s y Hs [_ F2] (r & E). unfold pwc_tlb_get. rewrite E. now rewrite (F2 s y r Hs E).
  Qed.
End CACHES.
