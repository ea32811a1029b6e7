(** Proofs for C64: the partial walks in memory. *)
Require Import Arith NArith List Bool Lia Permutation.
Require Import Verif.Xlate_Model Verif.List_Model Verif.List_Spec Verif.List_Proofs Verif.List_Proofs2 Verif.List_Proofs4.
Import ListNotations.
Local Open Scope N_scope.

Lemma map_put w p x ns : ~ In p ns -> List.map (pc_put w p x) ns = List.map w ns.
Proof. intros H. apply map_ext_in. intros a A. unfold pc_put. ends. Qed.

Section Partial.
  Variables (hd : N) (fresh : heap -> N) (h0 : heap).

  (** [holds] for a known prefix of the nodes *)
  Definition split_holds (c : pcache) (n1 n2 : list N) (l1 l2 : list xlate) : Prop :=
    has_nodes (pc_heap c) hd (n1 ++ n2) /\ List.map (pc_walk c) n1 = l1 /\ List.map (pc_walk c) n2 = l2
    /\ pc_n c = N.of_nat (length (l1 ++ l2)) mod 2 ^ 32
    /\ (forall q, q <> hd -> h0 q <> None -> ~ In q (n1 ++ n2))
    /\ (forall q, q <> hd -> ~ In q (n1 ++ n2) -> pc_heap c q = h0 q).
  Lemma split_whole c n1 n2 l1 l2 : split_holds c n1 n2 l1 l2 -> holds hd h0 c (l1 ++ l2).
  Proof. intros (R & A & B & C & D & E). exists (n1 ++ n2). rewrite map_app, A, B. auto. Qed.

  Lemma split_next c n1 y n2 l1 l2 : split_holds c n1 (y :: n2) l1 l2 ->
    y <> hd /\ get_next (pc_heap c) y = Some (List.hd hd n2)
    /\ split_holds c (n1 ++ [y]) n2 (l1 ++ [pc_walk c y]) (tl l2) /\ l2 = pc_walk c y :: tl l2.
  Proof.
    intros (R & A & B & C & D & E). split; [| split; [| split]].
    - intros ->. destruct R as [ND _]. inversion ND; subst. inlist.
    - destruct R as [_ R]. apply chain_app in R. destruct R as [_ R]. exact (chain_first _ _ _ _ R).
    - unfold split_holds. rewrite <- !app_assoc. simpl. subst l1 l2. rewrite map_app. simpl. repeat split; try tauto.
      + apply R.
      + apply R.
    - subst l2. reflexivity.
  Qed.
  Lemma insert_from : forall n2 fuel c x n1 l1 l2, pc_heap c (fresh (pc_heap c)) = None -> split_holds c n1 n2 l1 l2 -> (length n2 <= fuel)%nat ->
    match partial_insert l2 x with
    | XErr e => pc_insert_from hd fresh fuel c x (List.hd hd n2) = PErr e
    | XOk l' => exists c', pc_insert_from hd fresh fuel c x (List.hd hd n2) = POk c' /\ holds hd h0 c' (l1 ++ l')
    end.
  Proof.
    induction n2 as [| y n2 IH]; intros fuel c x n1 l1 l2 F S LE.
    - pose proof S as (R & A & B & C & D & E). subst l2. simpl.
      rewrite app_nil_r in *.
      assert (X : pc_insert_from hd fresh fuel c x hd =
        match (let! h := alloc (pc_heap c) (fresh (pc_heap c)) in list_add_tail h hd (fresh (pc_heap c))) with
        | None => PFault
        | Some h => POk (mk_pcache h (pc_put (pc_walk c) (fresh (pc_heap c)) x) ((pc_n c + 1) mod 2 ^ 32))
        end) by (destruct fuel; simpl; rewrite N.eqb_refl; reflexivity).
      rewrite X. clear X.  set (n := fresh (pc_heap c)) in *.
      assert (Nn : ~ In n (hd :: n1)).
      { intros I. destruct R as [_ R]. apply (chain_live _ _ _ _ R n); [| exact F]. clear - I. simpl in *. rewrite in_app_iff. tauto. }
      unfold alloc. rewrite F. cbn [bind].
      set (h1 := store (pc_heap c) n (mk_node 0 0)).
      assert (R1 : has_nodes h1 hd n1).
      { destruct R as [ND R]. split; [exact ND |]. apply (chain_frame (pc_heap c)); [exact R | |]; intros q Q; unfold get_next, get_prev, h1, store; ends; exfalso; inlist. }
      assert (L1 : live h1 n) by (unfold live, h1, store; rewrite N.eqb_refl; discriminate).
      destruct (ring_add_before h1 hd n1 n R1 L1 Nn) as (h2 & E2 & R2 & O2 & SL2).
      unfold list_add_tail. rewrite E2. eexists. split; [reflexivity |].
      exists (n1 ++ [n]). cbn [pc_heap pc_walk pc_n]. split; [exact R2 |]. split; [| split; [| split]].
      + rewrite map_app. simpl. f_equal; [rewrite map_put by inlist; exact A |]. unfold pc_put. rewrite N.eqb_refl. reflexivity.
      + rewrite C, app_length. simpl length. rewrite N.add_mod_idemp_l by discriminate. f_equal. lia.
      + intros q Q Q' I. apply in_app_iff in I. destruct I as [I | [<- | []]]; [exact (D q Q Q' I) |].
        apply Q'. rewrite <- E; [exact F | exact Q | inlist].
      + intros q Q I. rewrite O2 by inlist. unfold h1, store. destruct (N.eqb_spec q n) as [e |]; [exfalso; apply I; subst q; inlist |].
        apply E; [exact Q | inlist].
    - destruct (split_next _ _ _ _ _ _ S) as (NE & NX & S' & L2). rewrite L2.
      simpl in LE. destruct fuel as [| fuel]; [lia |]. cbn [List.hd pc_insert_from partial_insert].
      destruct (N.eqb_spec y hd); [contradiction |].
      destruct (xlate_match (pc_walk c y) x).
      + destruct (xlate_merge (pc_walk c y) x) as [m | e]; [| reflexivity].
        eexists. split; [reflexivity |]. destruct S as (R & A & B & C & D & E). exists (n1 ++ y :: n2). cbn [pc_heap pc_walk pc_n].
        split; [exact R |]. assert (ND : ~ In y (n1 ++ n2)).
        { destruct R as [ND _]. inversion ND as [| ? ? _ ND']; subst. apply (nodup_rot n1 (y :: n2)) in ND'. inversion ND'; subst. inlist. }
        split; [| split; [| split; assumption]].
        * rewrite map_app. cbn [List.map]. rewrite !map_put by inlist. rewrite A. f_equal. unfold pc_put at 1. rewrite N.eqb_refl. f_equal.
          rewrite L2 in B. simpl in B. injection B as B. exact B.
        * rewrite C, L2, !app_length. reflexivity.
      + rewrite NX. specialize (IH fuel c x _ _ _ F S' ltac:(lia)).
        destruct (partial_insert (tl l2) x) as [l' | e]; [| exact IH].
        destruct IH as (c' & E1 & H). exists c'. split; [exact E1 |]. rewrite <- app_assoc in H. exact H.
  Qed.
  Lemma drop_node c n1 y n2 l1 l2 : split_holds c n1 (y :: n2) l1 l2 ->
    exists c', pc_drop c y = Some c' /\ holds hd h0 c' (l1 ++ tl l2).
  Proof.
    intros S. destruct (split_next _ _ _ _ _ _ S) as (NE & NX & S' & L2). destruct S as (R & A & B & C & D & E).
    destruct (drop_ok (pc_heap c) hd n1 y n2 R) as (h' & Eh & R' & G & O). unfold pc_drop, bind in *.
    destruct (list_del (pc_heap c) y) as [h1 |]; [| discriminate Eh]. rewrite Eh. eexists. split; [reflexivity |].
    exists (n1 ++ n2). cbn [pc_heap pc_walk pc_n]. split; [exact R' |]. split; [| split; [| split]].
    - rewrite map_app, A. f_equal. rewrite L2 in B. simpl in B. injection B as B. exact B.
    - rewrite C, L2, !app_length. cbn [length tl].
      set (k := (length l1 + length (tl l2))%nat). replace (length l1 + Datatypes.S (length (tl l2)))%nat with (k + 1)%nat by lia.
      rewrite Nat2N.inj_add. set (z := N.of_nat k). change (N.of_nat 1) with 1.
      replace ((z + 1) mod 2 ^ 32 + 2 ^ 32 - 1) with ((z + 1) mod 2 ^ 32 + (2 ^ 32 - 1)) by lia.
      rewrite N.add_mod_idemp_l by discriminate. replace (z + 1 + (2 ^ 32 - 1)) with (z + 1 * 2 ^ 32) by lia.
      rewrite N.mod_add by discriminate. reflexivity.
    - intros q Q Q' I. apply (D q Q Q'). inlist.
    - intros q Q I. destruct (N.eq_dec q y) as [-> | QY].
      + rewrite G. symmetry. destruct (h0 y) eqn:Z; [| reflexivity]. exfalso. apply (D y Q); [congruence | inlist].
      + rewrite O by inlist. apply E; [exact Q | inlist].
  Qed.
  Lemma lookup_from : forall n2 fuel c x n1 l1 l2, split_holds c n1 n2 l1 l2 -> (length n2 <= fuel)%nat ->
    match partial_lookup l2 x with
    | XErr e => pc_lookup_from hd fuel c x (List.hd hd n2) = PErr e
    | XOk (r, l') => exists c', pc_lookup_from hd fuel c x (List.hd hd n2) = POk (r, c') /\ holds hd h0 c' (l1 ++ l')
    end.
  Proof.
    induction n2 as [| y n2 IH]; intros fuel c x n1 l1 l2 S LE.
    - pose proof (split_whole _ _ _ _ _ S) as W. destruct S as (R & A & B & C & D & E). subst l2. simpl in *.
      exists c. split; [| exact W]. destruct fuel; simpl; rewrite N.eqb_refl; reflexivity.
    - destruct (split_next _ _ _ _ _ _ S) as (NE & NX & S' & L2). pose proof (drop_node _ _ _ _ _ _ S) as DN. rewrite L2.
      simpl in LE. destruct fuel as [| fuel]; [lia |]. cbn [List.hd pc_lookup_from partial_lookup].
      destruct (N.eqb_spec y hd); [contradiction |].
      destruct (xlate_match (pc_walk c y) x).
      + destruct (xlate_merge (pc_walk c y) x) as [m | e]; [| reflexivity].
        destruct DN as (c' & Ec & H). rewrite Ec. exists c'. split; [reflexivity | exact H].
      + rewrite NX. specialize (IH fuel c x _ _ _ S' ltac:(lia)).
        destruct (partial_lookup (tl l2) x) as [[r l'] | e]; [| exact IH].
        destruct IH as (c' & E1 & H). exists c'. split; [exact E1 |]. rewrite <- app_assoc in H. exact H.
  Qed.
  Lemma address_from : forall n2 fuel c a r n1 l1 l2, split_holds c n1 n2 l1 l2 -> (length n2 <= fuel)%nat ->
    exists c', pc_address_from hd fuel c a r (List.hd hd n2) = POk (fst (address_lookup l2 a r), c')
      /\ holds hd h0 c' (l1 ++ snd (address_lookup l2 a r)).
  Proof.
    induction n2 as [| y n2 IH]; intros fuel c a r n1 l1 l2 S LE.
    - pose proof (split_whole _ _ _ _ _ S) as W. destruct S as (R & A & B & C & D & E). subst l2. simpl in *.
      exists c. split; [| exact W]. destruct fuel; simpl; rewrite N.eqb_refl; reflexivity.
    - destruct (split_next _ _ _ _ _ _ S) as (NE & NX & S' & L2). pose proof (drop_node _ _ _ _ _ _ S) as DN. rewrite L2.
      simpl in LE. destruct fuel as [| fuel]; [lia |]. cbn [List.hd pc_address_from address_lookup].
      destruct (N.eqb_spec y hd); [contradiction |].
      destruct (match_address (pc_walk c y) a r).
      + destruct DN as (c' & Ec & H). rewrite Ec. exists c'. split; [reflexivity | exact H].
      + rewrite NX. destruct (IH fuel c a r _ _ _ S' ltac:(lia)) as (c' & E1 & H). exists c'.
        destruct (address_lookup (tl l2) a r) as [rr l']. cbn [fst snd] in *. split; [exact E1 |].
        rewrite <- app_assoc in H. exact H.
  Qed.

  Lemma pop_step o fuel c l : pc_heap c (fresh (pc_heap c)) = None -> holds hd h0 c l -> (length l <= fuel)%nat ->
    match spec_pop l o with
    | XErr e => run_pop hd fresh fuel c o = PErr e
    | XOk (r, l') => exists c', run_pop hd fresh fuel c o = POk (r, c') /\ holds hd h0 c' l' /\ (length l' <= Datatypes.S (length l))%nat
    end.
  Proof.
    intros FR (ns & R & A & B & C & D) LE.
    assert (S : split_holds c [] ns [] l) by (unfold split_holds; simpl; rewrite A; repeat split; auto; apply R).
    assert (LN : (length ns <= fuel)%nat) by (subst l; rewrite map_length in LE; exact LE).
    pose proof (chain_first _ _ _ _ (proj2 R)) as F.
    destruct o as [x | x | a r]; cbn [spec_pop run_pop].
    - pose proof (insert_from ns fuel c x [] [] l FR S LN) as H. unfold pc_insert. rewrite F.
      assert (LL : forall l l', partial_insert l x = XOk l' -> (length l' <= Datatypes.S (length l))%nat).
      { clear. induction l as [| n l IH]; intros l' E; simpl in E.
        - injection E as <-. simpl. lia.
        - destruct (xlate_match n x).
          + destruct (xlate_merge n x); [| discriminate E]. injection E as <-. simpl. lia.
          + destruct (partial_insert l x) as [l2 |] eqn:E2; [| discriminate E]. injection E as <-. simpl. specialize (IH l2 eq_refl). lia. }
      specialize (LL l). destruct (partial_insert l x) as [l' | e].
      + destruct H as (c' & E & H). rewrite E. exists c'. auto.
      + rewrite H. reflexivity.
    - pose proof (lookup_from ns fuel c x [] [] l S LN) as H. unfold pc_lookup. rewrite F.
      assert (LL : forall l r l', partial_lookup l x = XOk (r, l') -> (length l' <= Datatypes.S (length l))%nat).
      { clear. induction l as [| n l IH]; intros r l' E; simpl in E.
        - injection E as _ <-. simpl. lia.
        - destruct (xlate_match n x).
          + destruct (xlate_merge n x); [| discriminate E]. injection E as _ <-. simpl. lia.
          + destruct (partial_lookup l x) as [[r2 l2] |] eqn:E2; [| discriminate E]. injection E as _ <-. simpl. specialize (IH r2 l2 eq_refl). lia. }
      specialize (LL l). destruct (partial_lookup l x) as [[r l'] | e].
      + destruct H as (c' & E & H). rewrite E. exists c'. split; [reflexivity |]. split; [exact H | eapply LL; reflexivity].
      + exact H.
    - destruct (address_from ns fuel c a r [] [] l S LN) as (c' & E & H). unfold pc_address. rewrite F.
      assert (LL : forall l, (length (snd (address_lookup l a r)) <= Datatypes.S (length l))%nat).
      { clear. induction l as [| n l IH]; simpl; [lia |]. destruct (match_address n a r); [simpl; lia |].
        destruct (address_lookup l a r). simpl in *. lia. }
      specialize (LL l). destruct (address_lookup l a r) as [rr l']. exists c'. auto.
  Qed.
  Theorem pops_ok : forall os fuel c l, callocs_ok hd fresh fuel c os -> holds hd h0 c l -> (length l + length os <= fuel)%nat ->
    match spec_pops l os with
    | XErr e => run_pops hd fresh fuel c os = PErr e
    | XOk (rs, l') => exists c', run_pops hd fresh fuel c os = POk (rs, c') /\ holds hd h0 c' l'
    end.
  Proof.
    induction os as [| o os IH]; intros fuel c l K H LE; cbn [spec_pops run_pops].
    - exists c. auto.
    - simpl in LE. destruct K as [K1 K2]. pose proof (pop_step o fuel c l K1 H ltac:(lia)) as P. destruct (spec_pop l o) as [[r l1] | e].
      + destruct P as (c1 & E1 & H1 & L1). rewrite E1 in K2 |- *. specialize (IH fuel c1 l1 K2 H1 ltac:(lia)).
        destruct (spec_pops l1 os) as [[rs l2] | e].
        * destruct IH as (c2 & E2 & H2). rewrite E2. exists c2. auto.
        * rewrite IH. reflexivity.
      + rewrite P. reflexivity.
  Qed.
  Lemma init_holds w : h0 hd <> None -> exists c, pc_init hd h0 w = Some c /\ holds hd h0 c [].
  Proof.
    intros L. destruct (init_ok h0 hd L) as (h & E & NX & PV & O & SL). unfold pc_init. rewrite E.
    eexists. split; [reflexivity |]. exists []. cbn [pc_heap pc_walk pc_n]. split; [| split; [reflexivity | split; [reflexivity | split]]].
    - split; [repeat constructor; auto |]. split; [rewrite NX | rewrite PV]; ends.
    - intros q _ _ [].
    - intros q Q _. apply O. inlist.
  Qed.
End Partial.
Theorem partial_ok hd fresh h0 w os fuel : h0 hd <> None -> (length os <= fuel)%nat ->
  exists c, pc_init hd h0 w = Some c /\
  (callocs_ok hd fresh fuel c os ->
   match spec_pops [] os with
   | XErr e => run_pops hd fresh fuel c os = PErr e
   | XOk (rs, l') => exists c', run_pops hd fresh fuel c os = POk (rs, c') /\ holds hd h0 c' l'
   end).
Proof.
  intros L LE. destruct (init_holds hd fresh h0 w L) as (c & E & H). exists c. split; [exact E |]. intros K.
  apply (pops_ok hd fresh h0); [exact K | exact H | exact LE].
Qed.

(** ** As stated *)
Lemma queries_ok h hd l : has_nodes h hd l ->
  list_empty h hd = Some (match l with [] => true | _ => false end)
  /\ list_top h hd = Some (hd_error l) /\ list_tail h hd = Some (hd_error (rev l))
  /\ (forall l1 x l2, l = l1 ++ x :: l2 ->
        list_next h hd x = Some (hd_error l2) /\ list_prev h hd x = Some (hd_error (rev l1)))
  /\ exists h', list_pop h hd = Some (hd_error l, h') /\ has_nodes h' hd (tl l).
Proof.
  intros R. split; [exact (empty_ok _ _ _ R) |]. split; [exact (top_ok _ _ _ R) |]. split; [exact (tail_ok _ _ _ R) |]. split.
  - intros l1 x l2 ->. split; [exact (next_ok _ _ _ _ _ R) | exact (prev_ok _ _ _ _ _ R)].
  - destruct (pop_ok _ _ _ R) as (h' & E & R' & _). eauto.
Qed.
Lemma loops_ok (S : Type) (f : S -> N -> S) h hd l s : has_nodes h hd l ->
  list_for_each (fun h s i => Some (h, f s i)) (length l) h s hd = Some (h, fold_left f l s)
  /\ list_for_each_rev (fun h s i => Some (h, f s i)) (length l) h s hd = Some (h, fold_left f (rev l) s).
Proof. intros R. split; [exact (each_ok f h hd l s R) | exact (each_rev_ok f h hd l s R)]. Qed.
Lemma safe_loops_ok (S : Type) (f : S -> N -> S) (drop : N -> bool) h hd l s : has_nodes h hd l ->
  let body h s i := if drop i then
                      match list_del h i with
                      | Some h1 => match release h1 i with Some h2 => Some (h2, f s i) | None => None end
                      | None => None
                      end
                    else Some (h, f s i) in
  let left h' := has_nodes h' hd (filter (fun i => negb (drop i)) l)
                 /\ (forall q, In q l -> drop q = true -> h' q = None) /\ (forall q, ~ In q (hd :: l) -> h' q = h q) in
  (exists h', list_for_each_safe body (length l) h s hd = Some (h', fold_left f l s) /\ left h')
  /\ (exists h', list_for_each_rev_safe body (length l) h s hd = Some (h', fold_left f (rev l) s) /\ left h').
Proof. intros R. split; [exact (safe_ok f drop h hd l s R) | exact (rev_safe_ok f drop h hd l s R)]. Qed.
Lemma unsafe : ~ forall h hd l, has_nodes h hd l ->
  forall fuel, (length l <= fuel)%nat ->
  list_for_each (fun h (s : unit) i => match list_del h i with Some h1 => match release h1 i with Some h2 => Some (h2, s) | None => None end | None => None end)
    fuel h tt hd <> None.
Proof.
  intros H.
  specialize (H (fun p => if p =? 1 then Some (mk_node 2 2) else if p =? 2 then Some (mk_node 1 1) else None) 1 [2]).
  refine (H _ 1%nat (le_n _) _); [| reflexivity].
  split; [repeat constructor; simpl; intuition discriminate | repeat split].
Qed.
