(** Basic-block vectors: proofs. *)
Require Import NArith ZArith Arith List Bool Lia Permutation.
Require Import ZifyBool ZifyN ZifyNat.
Require Import Verif.Word Verif.Matrix_Model Verif.Matrix_Spec Verif.Matrix_Proofs.
Require Import Verif.Bbv_Model Verif.Bbv_Spec.
Import ListNotations.
Local Open Scope N_scope.

(** ** Different addresses *)
Lemma existsb_in : forall a l, existsb (N.eqb a) l = true <-> In a l.
Proof.
  intros a l. rewrite existsb_exists. split.
  - intros (x & Hx & E). apply N.eqb_eq in E. now subst.
  - intro H. exists a. split; [exact H|apply N.eqb_refl].
Qed.
Lemma firsts_snoc : forall l a,
  firsts (l ++ [a]) = if existsb (N.eqb a) (firsts l) then firsts l else firsts l ++ [a].
Proof. intros l a. unfold firsts. rewrite fold_left_app. reflexivity. Qed.
Lemma firsts_in : forall l a, In a (firsts l) <-> In a l.
Proof.
  induction l as [|x l IH] using rev_ind; intro a; [cbn; tauto|].
  rewrite firsts_snoc. destruct (existsb (N.eqb x) (firsts l)) eqn:E.
  - rewrite in_app_iff, IH. cbn. apply existsb_in, IH in E. split; [tauto|].
    intros [H|[<-|[]]]; auto.
  - rewrite !in_app_iff, IH. tauto.
Qed.
Lemma firsts_nodup : forall l, NoDup (firsts l).
Proof.
  induction l as [|x l IH] using rev_ind; [constructor|].
  rewrite firsts_snoc. destruct (existsb (N.eqb x) (firsts l)) eqn:E; [exact IH|].
  apply NoDup_rev in IH. rewrite <- (rev_involutive (firsts l ++ [x])). apply NoDup_rev.
  rewrite rev_app_distr. cbn. constructor; [|exact IH].
  rewrite <- in_rev. intro H. apply existsb_in in H. congruence.
Qed.
Lemma firsts_incl : forall l l', incl l l' -> (length (firsts l) <= length (firsts l'))%nat.
Proof.
  intros l l' H. apply NoDup_incl_length; [apply firsts_nodup|].
  intros a Ha. apply firsts_in. apply H. now apply firsts_in.
Qed.

(** ** Weights *)
Section P.
  Variable P : N.
  Notation weight := (weight P).
  Notation seen := (seen P).
  Notation vector := (vector P).

  Lemma weight_snoc : forall ks k i a, weight (ks ++ [k]) i a =
    (weight ks i a + (if (k_end k / P =? i) && (k_addr k =? a) then k_len k mod 2 ^ 32 else 0)) mod 2 ^ 64.
  Proof.
    intros ks k i a. unfold Bbv_Spec.weight. rewrite N.add_mod_idemp_l by discriminate. f_equal.
    induction ks as [|x ks IH]; cbn [app fold_right].
    - rewrite N.add_0_r. lia.
    - rewrite IH. rewrite N.add_assoc. reflexivity.
  Qed.
  Lemma weight_zero : forall ks i a, (forall k, In k ks -> k_addr k = a -> k_end k / P <> i) -> weight ks i a = 0.
  Proof.
    intros ks i a H. unfold Bbv_Spec.weight.
    replace (fold_right _ 0 ks) with 0; [reflexivity|].
    induction ks as [|k ks IH]; [reflexivity|]. cbn [fold_right].
    rewrite <- IH by (intros; apply H; [now right|assumption]).
    destruct (N.eqb_spec (k_end k / P) i) as [E|]; [|reflexivity].
    destruct (N.eqb_spec (k_addr k) a) as [E2|]; [|reflexivity].
    exfalso. exact (H k (or_introl eq_refl) E2 E).
  Qed.
  Lemma seen_snoc : forall ks k i, i <= k_end k / P -> seen (ks ++ [k]) i = seen ks i.
  Proof.
    intros ks k i H. unfold Bbv_Spec.seen. rewrite filter_app. cbn [filter].
    destruct (N.ltb_spec (k_end k / P) i); [lia|]. now rewrite app_nil_r.
  Qed.
  Lemma seen_all : forall ks i, (forall k, In k ks -> k_end k / P < i) ->
    seen ks i = N.of_nat (length (firsts (map k_addr ks))).
  Proof.
    intros ks i H. unfold Bbv_Spec.seen. do 4 f_equal.
    induction ks as [|k ks IH]; [reflexivity|]. cbn [filter].
    destruct (N.ltb_spec (k_end k / P) i) as [_|X].
    - f_equal. apply IH. intros; apply H; now right.
    - specialize (H k (or_introl eq_refl)). lia.
  Qed.
  Lemma seen_mono : forall ks i, seen ks i <= seen ks (i + 1).
  Proof.
    intros ks i. unfold Bbv_Spec.seen.
    enough (Nat.le (length (firsts (map k_addr (filter (fun k => k_end k / P <? i) ks))))
            (length (firsts (map k_addr (filter (fun k => k_end k / P <? i + 1) ks))))) by lia.
    apply firsts_incl. intros a Ha. apply in_map_iff in Ha. destruct Ha as (k & <- & Hk).
    apply filter_In in Hk. apply in_map. apply filter_In. split; [apply Hk|]. lia.
  Qed.
  Lemma vector_snoc : forall ks k i c, (forall x, In x ks -> True) -> i < k_end k / P ->
    vector (ks ++ [k]) i c = vector ks i c.
  Proof.
    intros ks k i c _ Hi. unfold Bbv_Spec.vector. rewrite map_app. cbn [map].
    rewrite firsts_snoc.
    assert (W : forall a, weight (ks ++ [k]) i a = weight ks i a).
    { intro a. rewrite weight_snoc. destruct (N.eqb_spec (k_end k / P) i); [lia|]. cbn [andb].
      rewrite N.add_0_r. apply N.mod_small. unfold Bbv_Spec.weight. apply N.mod_lt. discriminate. }
    destruct (existsb (N.eqb (k_addr k)) (firsts (map k_addr ks))) eqn:E.
    - destruct (nth_error _ _); [apply W|reflexivity].
    - set (F := firsts (map k_addr ks)) in *.
      destruct (Nat.lt_ge_cases (N.to_nat c) (length F)) as [L|L].
      + rewrite nth_error_app1 by exact L. destruct (nth_error F (N.to_nat c)); [apply W|reflexivity].
      + rewrite nth_error_app2 by exact L. rewrite (proj2 (nth_error_None F (N.to_nat c)) L).
        destruct (N.to_nat c - length F)%nat as [|z]; cbn; [|destruct z; reflexivity].
        rewrite W. apply weight_zero. intros x Hx Ea. exfalso.
        assert (In (k_addr k) F). { apply firsts_in. rewrite <- Ea. now apply in_map. }
        apply existsb_in in H. congruence.
  Qed.
  Lemma weight_lt : forall ks i a, weight ks i a < 2 ^ 64.
  Proof. intros. unfold Bbv_Spec.weight. apply N.mod_lt. discriminate. Qed.

  (** ** Objects *)
  Definition objs_ok (ks : list block) (i : N) (objs : list obj) : Prop :=
    length objs = length (firsts (map k_addr ks)) /\
    forall j a, nth_error (firsts (map k_addr ks)) j = Some a ->
      nth_error objs j = Some (mk_obj a (weight ks i a) (N.of_nat j)).

  Lemma bump_in : forall objs a v, In a (map o_addr objs) -> NoDup (map o_addr objs) ->
    exists objs', bump objs a v = Some objs' /\ length objs' = length objs /\
      forall j o, nth_error objs j = Some o -> nth_error objs' j =
        Some (if o_addr o =? a then mk_obj a (add64 (o_count o) v) (o_id o) else o).
  Proof.
    induction objs as [|o objs IH]; intros a v Hin Hd; [destruct Hin|].
    cbn [map] in Hd, Hin. cbn [bump]. inversion Hd as [|? ? Hn Hd' E]. subst.
    destruct (N.eqb_spec (o_addr o) a) as [E|E].
    - eexists. split; [reflexivity|]. split; [reflexivity|].
      intros [|j] x; cbn [nth_error].
      + intro X. injection X as <-. subst a. rewrite N.eqb_refl. reflexivity.
      + intro X. rewrite X. f_equal. destruct (N.eqb_spec (o_addr x) a) as [E2|]; [|reflexivity].
        exfalso. apply Hn. rewrite E, <- E2. apply in_map. eapply nth_error_In; eauto.
    - destruct Hin as [Hin|Hin]; [contradiction|].
      destruct (IH a v Hin Hd') as (objs' & E1 & E2 & E3). rewrite E1.
      eexists. split; [reflexivity|]. cbn [length]. split; [lia|].
      intros [|j] x; cbn [nth_error]; [|apply E3].
      intro X. injection X as <-. f_equal. destruct (N.eqb_spec (o_addr o) a); [contradiction|reflexivity].
  Qed.
  Lemma bump_out : forall objs a v, ~ In a (map o_addr objs) -> bump objs a v = None.
  Proof.
    induction objs as [|o objs IH]; intros a v H; [reflexivity|]. cbn [bump].
    destruct (N.eqb_spec (o_addr o) a) as [E|E]; [exfalso; apply H; left; exact E|].
    rewrite IH; [reflexivity|]. intro X. apply H. now right.
  Qed.
  Lemma objs_addr : forall ks i objs, objs_ok ks i objs -> map o_addr objs = firsts (map k_addr ks).
  Proof.
    intros ks i objs (H1 & H2). revert H1 H2. generalize (firsts (map k_addr ks)). intros F H1 H2.
    assert (G : forall F objs s, length objs = length F ->
      (forall j a, nth_error F j = Some a -> nth_error objs j = Some (mk_obj a (weight ks i a) (N.of_nat (s + j)))) ->
      map o_addr objs = F).
    { clear. induction F as [|a F IH]; intros [|o objs] s H1 H2; try discriminate H1; [reflexivity|].
      pose proof (H2 O a eq_refl) as X. injection X as ->. cbn [map o_addr]. f_equal.
      apply (IH objs (S s)); [now injection H1|]. intros j b Hj. etransitivity; [exact (H2 (S j) b Hj)|]. do 2 f_equal. lia. }
    apply (G F objs O); auto.
  Qed.

  Lemma add_ok : forall s ks i k, objs_ok ks i (b_objs s) ->
    b_next s = N.of_nat (length (firsts (map k_addr ks))) ->
    N.of_nat (length (firsts (map k_addr (ks ++ [k])))) < 2 ^ 32 ->
    k_end k / P = i -> k_len k mod 2 ^ 32 < 2 ^ 32 ->
    exists objs, add_basic_block s (k_addr k) (k_len k mod 2 ^ 32) =
      mk_bbv objs (N.of_nat (length (firsts (map k_addr (ks ++ [k]))))) (b_matrix s)
             (b_interval s) (b_ea s) (b_size s) (b_insns s) /\
      objs_ok (ks ++ [k]) i objs.
  Proof.
    intros s ks i k Ho Hn Hb Hi Hl. pose proof (objs_addr _ _ _ Ho) as Ha. destruct Ho as [O1 O2].
    unfold add_basic_block, objs_ok. rewrite map_app in *. cbn [map] in *. rewrite firsts_snoc in *.
    set (F := firsts (map k_addr ks)) in *.
    destruct (existsb (N.eqb (k_addr k)) F) eqn:E.
    - apply existsb_in in E.
      destruct (bump_in (b_objs s) (k_addr k) (k_len k mod 2 ^ 32)) as (objs & E1 & E2 & E3).
      { now rewrite Ha. }
      { rewrite Ha. apply firsts_nodup. }
      rewrite E1. exists objs. split; [now rewrite Hn|]. split; [lia|].
      intros j a Hj. rewrite (E3 j _ (O2 j a Hj)). cbn [o_addr o_count o_id]. f_equal.
      rewrite weight_snoc, Hi, N.eqb_refl. cbn [andb].
      rewrite (N.eqb_sym (k_addr k) a). destruct (N.eqb_spec a (k_addr k)) as [-> |Na].
      + reflexivity.
      + rewrite N.add_0_r, N.mod_small by apply weight_lt. reflexivity.
    - rewrite bump_out.
      2:{ rewrite Ha. intro X. apply existsb_in in X. congruence. }
      rewrite app_length in Hb. cbn [length] in Hb.
      eexists. split.
      { rewrite Hn. f_equal. rewrite app_length. cbn [length]. unfold u32. change w32 with (2 ^ 32).
        rewrite N.mod_small; lia. }
      split; [rewrite !app_length; cbn [length]; lia|].
      intros j a Hj. destruct (Nat.lt_ge_cases j (length F)) as [L|L].
      + rewrite nth_error_app1 in Hj by exact L. rewrite nth_error_app1 by lia. rewrite (O2 j a Hj).
        do 2 f_equal. rewrite weight_snoc. destruct (N.eqb_spec (k_addr k) a) as [Ek|_].
        * exfalso. rewrite <- Ek in Hj. apply nth_error_In in Hj. apply existsb_in in Hj. congruence.
        * rewrite andb_false_r, N.add_0_r, N.mod_small by apply weight_lt. reflexivity.
      + rewrite nth_error_app2 in Hj by exact L. rewrite nth_error_app2 by lia.
        destruct (j - length F)%nat as [|z] eqn:Ez; [|destruct z; discriminate Hj].
        injection Hj as <-. replace (j - length (b_objs s))%nat with O by lia. cbn [nth_error].
        f_equal. f_equal; [|lia]. rewrite weight_snoc, Hi, !N.eqb_refl. cbn [andb].
        rewrite weight_zero.
        * rewrite N.add_0_l. symmetry. apply N.mod_small.
          eapply N.lt_trans; [exact Hl|reflexivity].
        * intros x Hx Ex. exfalso.
          assert (In (k_addr k) F). { apply firsts_in. rewrite <- Ex. now apply in_map. }
          apply existsb_in in H. congruence.
  Qed.

  (** ** Stores *)
  Lemma store_ok : forall w I rows cols objs m f, holds m rows cols f -> I < rows ->
    (forall o, In o objs -> o_id o < cols /\ o_count o = w (o_id o)) ->
    exists m', store m I objs = MOk m' /\
      holds m' rows cols (fun i c =>
        if (i =? I) && existsb (fun o => (o_id o =? c) && negb (o_count o =? 0)) objs then w c else f i c).
  Proof.
    intros w I rows cols. induction objs as [|o objs IH]; intros m f Hm HI Ho.
    - exists m. split; [reflexivity|]. eapply holds_ext; [|exact Hm]. intros r c _ _.
      cbn [existsb]. now rewrite andb_false_r.
    - destruct (Ho o (or_introl eq_refl)) as [Hid Hc]. cbn [store].
      destruct (N.eqb_spec (o_count o) 0) as [Z|Z]; cbn [m_bind].
      + destruct (IH m f Hm HI ltac:(intros; apply Ho; now right)) as (m' & E & H).
        exists m'. split; [exact E|]. eapply holds_ext; [|exact H]. intros r c _ _.
        cbn [existsb]. rewrite Z, andb_false_r. reflexivity.
      + destruct (set_ok m rows cols f I (o_id o) (o_count o) Hm HI Hid) as (m1 & E1 & H1).
        rewrite E1. cbn [m_bind].
        destruct (IH m1 _ H1 HI ltac:(intros; apply Ho; now right)) as (m' & E & H).
        exists m'. split; [exact E|]. eapply holds_ext; [|exact H]. intros r c _ _.
        cbn [existsb]. unfold upd. destruct (N.eqb_spec r I) as [-> |]; cbn [andb]; [|reflexivity].
        rewrite (N.eqb_sym (o_id o) c). destruct (N.eqb_spec c (o_id o)) as [-> |]; cbn [andb orb]; [|reflexivity].
        destruct (N.eqb_spec (o_count o) 0); [contradiction|]. cbn [negb orb].
        destruct (existsb _ objs); [reflexivity|exact Hc].
  Qed.
End P.
