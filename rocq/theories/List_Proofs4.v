(** Proofs for C64: queries, loops, the check, and the partial walks. *)
Require Import Arith NArith List Bool Lia Permutation.
Require Import Verif.Xlate_Model Verif.List_Model Verif.List_Spec Verif.List_Proofs Verif.List_Proofs2.
Import ListNotations.
Local Open Scope N_scope.

(** ** Queries *)
Lemma empty_ok h hd l : has_nodes h hd l -> list_empty h hd = Some (match l with [] => true | _ => false end).
Proof.
  intros [D C]. unfold list_empty. rewrite (chain_first _ _ _ _ C). simpl. f_equal.
  destruct l as [| x l]; simpl; ends. inversion D; subst. inlist.
Qed.
Lemma top_ok h hd l : has_nodes h hd l -> list_top h hd = Some (hd_error l).
Proof.
  intros R. unfold list_top. rewrite (empty_ok _ _ _ R). destruct R as [D C]. simpl. 
  destruct l; [reflexivity |]. rewrite (chain_first _ _ _ _ C). reflexivity.
Qed.
Lemma tail_ok h hd l : has_nodes h hd l -> list_tail h hd = Some (hd_error (rev l)).
Proof.
  intros R. unfold list_tail. rewrite (empty_ok _ _ _ R). destruct R as [D C]. simpl. 
  destruct (rev_last l) as [-> | (l' & x & ->)]; [reflexivity |]. rewrite rev_app_distr. simpl.
  destruct (l' ++ [x]) eqn:E; [destruct l'; discriminate E |]. rewrite <- E in *.
  rewrite (chain_last _ _ _ _ C), last_app. reflexivity.
Qed.
Lemma pop_ok h hd l : has_nodes h hd l ->
  exists h', list_pop h hd = Some (hd_error l, h') /\ has_nodes h' hd (tl l) /\ only (hd :: tl l) h h' /\ same_live h h'.
Proof.
  intros R. unfold list_pop. rewrite (empty_ok _ _ _ R). simpl. destruct l as [| x l]; simpl.
  - exists h. split; [reflexivity |]. split; [exact R |]. split; [intros q _; reflexivity | apply live_refl].
  - rewrite (chain_first _ _ _ _ (proj2 R)). simpl.
    destruct (del_node h hd [] x l R) as (h' & E & R' & O & SL). rewrite E. exists h'. auto.
Qed.
Lemma next_ok h hd l1 x l2 : has_nodes h hd (l1 ++ x :: l2) -> list_next h hd x = Some (hd_error l2).
Proof.
  intros [D C]. apply chain_app in C. destruct C as [_ C]. unfold list_next. rewrite (chain_first _ _ _ _ C). simpl.
  unfold entry_or_null. destruct l2 as [| y l2]; simpl; ends. inversion D; subst. inlist.
Qed.
Lemma prev_ok h hd l1 x l2 : has_nodes h hd (l1 ++ x :: l2) -> list_prev h hd x = Some (hd_error (rev l1)).
Proof.
  intros [D C]. apply chain_app in C. destruct C as [C _]. unfold list_prev. rewrite (chain_last _ _ _ _ C). simpl.
  unfold entry_or_null. destruct (rev_last l1) as [-> | (l' & y & ->)]; simpl; [ends |].
  rewrite last_app, rev_app_distr. simpl. ends. inversion D; subst. inlist.
Qed.

Lemma release_ok h hd l n : has_nodes h hd l -> live h n -> ~ In n (hd :: l) ->
    exists h', release h n = Some h' /\ has_nodes h' hd l /\ (forall q, h' q = if q =? n then None else h q).
  Proof.
    intros [D C] L Nn. unfold release, live in *. destruct (h n); [| congruence]. eexists. split; [reflexivity |].
    split; [| reflexivity]. split; [exact D |]. apply (chain_frame h); [exact C | |]; intros q Q; unfold get_next, get_prev; ends; exfalso; inlist.
  Qed.
Lemma drop_ok h hd l1 n l2 : has_nodes h hd (l1 ++ n :: l2) ->
    exists h', (let! h := list_del h n in release h n) = Some h' /\ has_nodes h' hd (l1 ++ l2)
      /\ h' n = None /\ (forall q, ~ In q (hd :: l1 ++ n :: l2) -> h' q = h q).
  Proof.
    intros R. destruct (del_node h hd l1 n l2 R) as (h1 & E & R1 & O & SL). rewrite E. simpl.
    assert (Nn : ~ In n (hd :: l1 ++ l2)).
    { destruct R as [D _]. apply (nodup_rot (hd :: l1) (n :: l2)) in D. inversion D; subst. inlist. }
    destruct (release_ok h1 hd (l1 ++ l2) n R1) as (h2 & E2 & R2 & G); [| exact Nn |].
    { apply SL. destruct R as [_ C]. apply (chain_live _ _ _ _ C). inlist. }
    exists h2. split; [exact E2 |]. split; [exact R2 |]. split; [rewrite G, N.eqb_refl; reflexivity |].
    intros q Q. rewrite G. assert (q <> n) by inlist. ends. apply O. inlist.
  Qed.

(** ** Loops *)
Section Loops.
  Context {S : Type}.
  (** A body that leaves memory alone *)
  Variable f : S -> N -> S.
  Definition look (h : heap) (s : S) (i : N) : option (heap * S) := Some (h, f s i).
  Lemma each_from h hd l1 l : forall s, NoDup (hd :: l1 ++ l) -> chain h hd (l1 ++ l) hd ->
    for_each_from look get_next (length l) h s hd (List.hd hd l) = Some (h, fold_left f l s).
  Proof.
    revert l1. induction l as [| x l IH]; intros l1 s D C; simpl.
    - rewrite N.eqb_refl. reflexivity.
    - destruct (N.eqb_spec x hd) as [E |]; [exfalso; subst; inversion D; subst; inlist |].
      pose proof C as C'. apply chain_app in C'. destruct C' as [_ C']. rewrite (chain_first _ _ _ _ C'). simpl.
      apply (IH (l1 ++ [x])); rewrite <- app_assoc; assumption.
  Qed.
  Lemma each_ok h hd l s : has_nodes h hd l -> list_for_each look (length l) h s hd = Some (h, fold_left f l s).
  Proof.
    intros [D C]. unfold list_for_each, for_each_dir. rewrite (chain_first _ _ _ _ C). exact (each_from h hd [] l s D C).
  Qed.
  Lemma each_rev_from h hd l : forall l2 s, NoDup (hd :: l ++ l2) -> chain h hd (l ++ l2) hd ->
    for_each_from look get_prev (length l) h s hd (last l hd) = Some (h, fold_left f (rev l) s).
  Proof.
    induction l as [| x l IH] using rev_ind; intros l2 s D C; simpl.
    - rewrite N.eqb_refl. reflexivity.
    - rewrite last_app, app_length, Nat.add_comm. simpl.
      destruct (N.eqb_spec x hd) as [E |]; [exfalso; subst; inversion D; subst; inlist |].
      rewrite <- app_assoc in D, C. pose proof C as C'. simpl in C'. apply chain_app in C'. destruct C' as [C' _].
      rewrite (chain_last _ _ _ _ C'), rev_app_distr. simpl. exact (IH (x :: l2) (f s x) D C).
  Qed.
  Lemma each_rev_ok h hd l s : has_nodes h hd l -> list_for_each_rev look (length l) h s hd = Some (h, fold_left f (rev l) s).
  Proof.
    intros [D C]. unfold list_for_each_rev, for_each_dir. rewrite (chain_last _ _ _ _ C). simpl.
    apply (each_rev_from h hd l []); rewrite app_nil_r; assumption.
  Qed.

  (** A body that unlinks and frees some of the nodes *)
  Variable drop : N -> bool.
  Definition sweep (h : heap) (s : S) (i : N) : option (heap * S) :=
    if drop i then
      let! h := list_del h i in let! h := release h i in Some (h, f s i)
    else Some (h, f s i).
  Definition kept := filter (fun i => negb (drop i)).

  Lemma sweep_ok h hd l1 n l2 s : has_nodes h hd (l1 ++ n :: l2) ->
    exists h', sweep h s n = Some (h', f s n) /\ has_nodes h' hd (l1 ++ kept [n] ++ l2)
      /\ (drop n = true -> h' n = None) /\ (forall q, ~ In q (hd :: l1 ++ n :: l2) -> h' q = h q).
  Proof.
    intros R. unfold sweep, kept. simpl. destruct (drop n); simpl.
    - destruct (drop_ok h hd l1 n l2 R) as (h' & E & R' & G & O). unfold bind in *.
      destruct (list_del h n) as [h1 |]; [| discriminate E]. rewrite E. exists h'. auto.
    - exists h. split; [reflexivity |]. split; [exact R |]. split; [discriminate | auto].
  Qed.

  Lemma safe_from hd l : forall h s l1, has_nodes h hd (l1 ++ l) ->
    exists h', for_each_safe_from sweep get_next (length l) h s hd (List.hd hd l) (List.hd hd (tl (l ++ [hd; List.hd hd (l1 ++ l)]))) = Some (h', fold_left f l s)
      /\ has_nodes h' hd (l1 ++ kept l) /\ (forall q, In q l -> drop q = true -> h' q = None)
      /\ (forall q, ~ In q (hd :: l1 ++ l) -> h' q = h q).
  Proof.
    induction l as [| x l IH]; intros h s l1 R; cbn [length for_each_safe_from List.hd].
    - rewrite N.eqb_refl. exists h. split; [reflexivity |]. split; [exact R |]. split; [intros q [] | auto].
    - destruct (N.eqb_spec x hd) as [E |]; [exfalso; subst; destruct R as [D _]; inversion D; subst; inlist |].
      destruct (sweep_ok h hd l1 x l s R) as (h1 & E1 & R1 & G1 & O1). rewrite E1. cbn [bind fst snd].
      rewrite app_assoc in R1. destruct (IH h1 (f s x) (l1 ++ kept [x]) R1) as (h2 & E2 & R2 & G2 & O2).
      assert (N : get_next h1 (List.hd hd (tl ((x :: l) ++ [hd; List.hd hd (l1 ++ x :: l)])))
                  = Some (List.hd hd (tl (l ++ [hd; List.hd hd ((l1 ++ kept [x]) ++ l)])))).
      { destruct R1 as [D1 C1]. destruct l as [| y l]; cbn [List.hd tl app].
        - rewrite (chain_first _ _ _ _ C1). f_equal. 
        - apply chain_app in C1. destruct C1 as [_ C1]. rewrite (chain_first _ _ _ _ C1). destruct l; reflexivity. }
      rewrite N. cbn [bind]. exists h2.
      assert (T : List.hd hd (tl ((x :: l) ++ [hd; List.hd hd (l1 ++ x :: l)])) = List.hd hd l) by (destruct l; reflexivity).
      rewrite T. split; [exact E2 |]. split; [| split].
      + rewrite <- app_assoc in R2. unfold kept in *. simpl in *. destruct (drop x); exact R2.
      + intros q [-> | Q] DQ.
        * rewrite O2; [apply G1; exact DQ |]. destruct R as [D _]. unfold kept. simpl. rewrite DQ. simpl. rewrite app_nil_r.
          apply (nodup_rot (hd :: l1) (q :: l)) in D. inversion D; subst. inlist.
        * auto.
      + intros q Q. rewrite O2; [apply O1; exact Q |]. intros I. apply Q. clear - I. simpl in *. rewrite !in_app_iff in *. simpl.
        unfold kept in I. simpl in I. destruct (drop x); simpl in I; tauto.
  Qed.
  Theorem safe_ok h hd l s : has_nodes h hd l ->
    exists h', list_for_each_safe sweep (length l) h s hd = Some (h', fold_left f l s)
      /\ has_nodes h' hd (kept l) /\ (forall q, In q l -> drop q = true -> h' q = None)
      /\ (forall q, ~ In q (hd :: l) -> h' q = h q).
  Proof.
    intros R. destruct (safe_from hd l h s [] R) as (h' & E & X). exists h'. split; [| exact X].
    unfold list_for_each_safe, for_each_safe_dir. destruct R as [D C]. rewrite (chain_first _ _ _ _ C). cbn [bind].
    assert (N : get_next h (List.hd hd l) = Some (List.hd hd (tl (l ++ [hd; List.hd hd l])))).
    { destruct l as [| y l]; [exact (chain_first _ _ _ _ C) |]. simpl. destruct C as [_ C].
      rewrite (chain_first _ _ _ _ C). destruct l; reflexivity. }
    rewrite N. exact E.
  Qed.

  (** Backwards; the node before *)
  Definition before (hd : N) (l : list N) (x : N) : N := last (removelast (x :: l)) hd.
  Lemma rev_safe_from hd l : forall h s l2 nxt, has_nodes h hd (l ++ l2) ->
    (l <> [] -> nxt = last (removelast l) hd) -> (l = [] -> True) -> live h nxt ->
    exists h', for_each_safe_from sweep get_prev (length l) h s hd (last l hd) nxt = Some (h', fold_left f (rev l) s)
      /\ has_nodes h' hd (kept l ++ l2) /\ (forall q, In q l -> drop q = true -> h' q = None)
      /\ (forall q, ~ In q (hd :: l ++ l2) -> h' q = h q).
  Proof.
    induction l as [| x l IH] using rev_ind; intros h s l2 nxt R NX _ L; cbn [length for_each_safe_from List.hd].
    - simpl. rewrite N.eqb_refl. exists h. split; [reflexivity |]. split; [exact R |]. split; [intros q [] | auto].
    - rewrite last_app, app_length, Nat.add_comm. cbn [length Nat.add for_each_safe_from].
      destruct (N.eqb_spec x hd) as [E |]; [exfalso; subst; destruct R as [D _]; inversion D; subst; inlist |].
      rewrite <- app_assoc in R. cbn [app] in R.
      destruct (sweep_ok h hd l x l2 s R) as (h1 & E1 & R1 & G1 & O1). rewrite E1. cbn [bind fst snd].
      rewrite NX by (destruct l; discriminate). rewrite removelast_last.
      assert (N : exists v, get_prev h1 (last l hd) = Some v /\ (l <> [] -> v = last (removelast l) hd) /\ live h1 v).
      { destruct R1 as [D1 C1]. destruct (rev_last l) as [-> | (l' & y & ->)].
        - simpl in *. rewrite (chain_last _ _ _ _ C1). eexists. split; [reflexivity |]. split; [congruence |].
          pose proof (in_last (kept [x] ++ l2) hd) as I. apply (chain_live _ _ _ _ C1). simpl in I |- *. rewrite in_app_iff. tauto.
        - rewrite last_app, removelast_last. rewrite <- app_assoc in C1. simpl in C1. apply chain_app in C1.
          destruct C1 as [C1 _]. rewrite (chain_last _ _ _ _ C1). eexists. split; [reflexivity |]. split; [auto |].
          pose proof (in_last l' hd) as I. apply (chain_live _ _ _ _ C1). simpl in I |- *. rewrite in_app_iff. tauto. }
      destruct N as (v & N & NV & NL). rewrite N. cbn [bind].
      destruct (IH h1 (f s x) (kept [x] ++ l2) v R1 NV (fun _ => I) NL) as (h2 & E2 & R2 & G2 & O2).
      exists h2. rewrite rev_app_distr. cbn [rev app fold_left]. split; [exact E2 |]. split; [| split].
      + unfold kept in *. rewrite filter_app, <- app_assoc. exact R2.
      + intros q Q DQ. apply in_app_iff in Q. destruct Q as [Q | [-> | []]]; [auto |].
        rewrite O2; [apply G1; exact DQ |]. destruct R as [D _]. unfold kept. simpl. rewrite DQ. simpl.
        apply (nodup_rot (hd :: l) (q :: l2)) in D. inversion D; subst. inlist.
      + intros q Q. rewrite <- app_assoc in Q. rewrite O2; [apply O1; exact Q |]. intros I. apply Q. clear - I.
        simpl in *. rewrite !in_app_iff in *. simpl. unfold kept in I. simpl in I. destruct (drop x); simpl in I; tauto.
  Qed.
  Theorem rev_safe_ok h hd l s : has_nodes h hd l ->
    exists h', list_for_each_rev_safe sweep (length l) h s hd = Some (h', fold_left f (rev l) s)
      /\ has_nodes h' hd (kept l) /\ (forall q, In q l -> drop q = true -> h' q = None)
      /\ (forall q, ~ In q (hd :: l) -> h' q = h q).
  Proof.
    intros R. unfold list_for_each_rev_safe, for_each_safe_dir. pose proof R as [D C]. rewrite (chain_last _ _ _ _ C). cbn [bind].
    assert (N : exists v, get_prev h (last l hd) = Some v /\ (l <> [] -> v = last (removelast l) hd) /\ live h v).
    { destruct (rev_last l) as [-> | (l' & y & ->)].
      - simpl in *. exists hd. split; [exact (proj2 C) |]. split; [congruence |]. exact (next_live _ _ _ (proj1 C)).
      - rewrite last_app, removelast_last. apply chain_app in C. destruct C as [C _]. rewrite (chain_last _ _ _ _ C).
        eexists. split; [reflexivity |]. split; [auto |].
        pose proof (in_last l' hd) as I. apply (chain_live _ _ _ _ C). simpl in I |- *. rewrite in_app_iff. tauto. }
    destruct N as (v & N & NV & NL). rewrite N. cbn [bind].
    destruct (rev_safe_from hd l h s [] v) as (h' & E & R' & G & O); [rewrite app_nil_r; exact R | exact NV | auto | exact NL |].
    exists h'. rewrite app_nil_r in *. auto.
  Qed.
End Loops.

(** ** The check *)
(** What is visited is visited once. *)
Fixpoint path (h : heap) (a : N) (l : list N) : Prop :=
  match l with [] => True | x :: l' => linked h a x /\ path h x l' end.
Lemma path_snoc h a l x : path h a l -> linked h (last l a) x -> path h a (l ++ [x]).
Proof.
  revert a. induction l as [| y l IH]; intros a P L; simpl in *; [tauto |]. destruct P as [P1 P2]. split; [exact P1 |].
  apply IH; [exact P2 |]. destruct l; [exact L |]. 
  assert (E : forall (l : list N) d e z, last (z :: l) d = last (z :: l) e).
  { clear. induction l as [| w l IH]; intros d e z; [reflexivity |]. exact (IH d e w). }
  rewrite (E l y a). exact L.
Qed.
Lemma path_prev h a l1 x l2 : path h a (l1 ++ x :: l2) -> get_prev h x = Some (last l1 a).
Proof.
  revert a. induction l1 as [| y l IH]; intros a P; simpl in P; [exact (proj2 (proj1 P)) |].
  destruct P as [_ P]. rewrite (IH y P). destruct l; [reflexivity |]. cbn [last].
  assert (E : forall (l : list N) d e z, last (z :: l) d = last (z :: l) e).
  { clear. induction l as [| w l IH]; intros d e z; [reflexivity |]. exact (IH d e w). }
  f_equal. apply E.
Qed.
Lemma check_ends h node D : (forall q, live h q -> In q D) ->
  forall fuel l n, path h node l -> NoDup (node :: l) -> get_next h (last l node) = Some n -> live h node ->
  (forall q, In q l -> live h q) -> (length D <= fuel + length l)%nat -> check_from fuel h node (last l node) n <> None.
Proof.
  intros HD. induction fuel as [| fuel IH]; intros l n P ND NX Ln LV LE.
  - exfalso. assert (length (node :: l) <= length D)%nat; [| simpl in *; lia].
    apply NoDup_incl_length; [exact ND |]. intros q [<- | Q]; auto.
  - simpl. destruct (N.eqb_spec n node) as [e | NE]; [discriminate |].
    destruct (h n) as [v |] eqn:V; [| discriminate]. destruct (N.eqb_spec (prev v) (last l node)) as [PV |]; [| discriminate].
    assert (PN : get_prev h n = Some (last l node)) by (unfold get_prev; rewrite V, PV; reflexivity).
    assert (NI : ~ In n l).
    { intros I. apply in_split in I. destruct I as (l1 & l2 & ->). rewrite (path_prev _ _ _ _ _ P) in PN. injection PN as PN.
      destruct (rev_last (n :: l2)) as [Z | (l' & y & Z)]; [discriminate Z |]. rewrite Z in *.
      rewrite app_assoc, last_app in PN. pose proof (in_last l1 node) as I1. rewrite PN in I1.
      rewrite app_assoc in ND. apply (nodup_rot (node :: l1 ++ l') [y]) in ND. inversion ND; subst. apply H1.
      simpl in *. rewrite in_app_iff. tauto. }
    replace n with (last (l ++ [n]) node) at 1 by apply last_app.
    apply IH.
    + apply path_snoc; [exact P |]. split; assumption.
    + apply (nodup_rot [n] (node :: l)). constructor; [inlist | exact ND].
    + rewrite last_app. unfold get_next. rewrite V. reflexivity.
    + exact Ln.
    + intros q Q. apply in_app_iff in Q. destruct Q as [Q | [<- | []]]; [auto |]. unfold live. congruence.
    + rewrite app_length. simpl. lia.
Qed.
Lemma chain_nodup h a l : chain h a l a -> ~ In a l -> NoDup (a :: l).
Proof.
  intros C Na.
  assert (G : forall l1 l2, l = l1 ++ l2 -> NoDup (a :: l1)).
  { induction l1 as [| x l1 IH] using rev_ind; intros l2 E; [repeat constructor; auto |].
    rewrite <- app_assoc in E. pose proof (IH _ E) as ND. apply (nodup_rot [x] (a :: l1)). constructor; [| exact ND].
    intros [-> | I]; [apply Na; rewrite E; inlist |].
    apply in_split in I. destruct I as (m1 & m2 & ->).
    rewrite E in C. simpl in C. pose proof C as C1. apply chain_app in C1. destruct C1 as [C1 _].
    pose proof (chain_last _ _ _ _ C1) as P1. rewrite <- app_assoc in C. simpl in C. apply chain_app in C. destruct C as [C2 _].
    pose proof (chain_last _ _ _ _ C2) as P2. rewrite P1 in P2. injection P2 as P2.
    destruct (rev_last (x :: m2)) as [Z | (l' & y & Z)]; [discriminate Z |]. rewrite Z in *.
    rewrite app_assoc, last_app in P2. pose proof (in_last m1 a) as I1. rewrite <- P2 in I1.
    rewrite app_assoc in ND. apply (nodup_rot (a :: m1 ++ l') [y]) in ND. inversion ND; subst. apply H1.
    simpl in *. rewrite in_app_iff. tauto. }
  apply (G l []). symmetry. apply app_nil_r.
Qed.
Lemma check_good h node : forall fuel p n, check_from fuel h node p n = Some CGood -> 
  get_next h p = Some n -> exists l, chain h p l node /\ ~ In node l /\ (length l <= fuel)%nat.
Proof.
  induction fuel as [| fuel IH]; intros p n E P; simpl in E.
  - destruct (N.eqb_spec n node) as [e |]; [subst n | discriminate E]. exists []. split; [| split; [intros [] | auto]]. split; [exact P |].
    destruct (get_prev h node) as [q |]; [| discriminate E]. destruct (N.eqb_spec q p); [congruence | discriminate E].
  - destruct (N.eqb_spec n node) as [e |].
    + subst n. exists []. split; [| split; [intros [] | simpl; lia]]. split; [exact P |].
      destruct (get_prev h node) as [q |]; [| discriminate E]. destruct (N.eqb_spec q p); [congruence | discriminate E].
    + destruct (h n) as [v |] eqn:V; [| discriminate E]. destruct (N.eqb_spec (prev v) p) as [PV |]; [| discriminate E].
      destruct (IH n (next v) E) as (l & C & NI & LE); [unfold get_next; rewrite V; reflexivity |].
      exists (n :: l). split; [| split; [inlist | simpl; lia]]. split; [split; [exact P |] | exact C]. unfold get_prev. rewrite V. congruence.
Qed.
Lemma check_from_chain h node : forall l fuel p, chain h p l node -> ~ In node l -> (length l <= fuel)%nat ->
  check_from fuel h node p (List.hd node l) = Some CGood.
Proof.
  induction l as [| x l IH]; intros fuel p C NI LE.
  - destruct fuel; simpl; rewrite N.eqb_refl; destruct C as [_ C]; rewrite C, N.eqb_refl; reflexivity.
  - simpl in LE. destruct fuel as [| fuel]; [lia |]. simpl. destruct (N.eqb_spec x node) as [E |]; [exfalso; inlist |].
    destruct C as [[C1 C2] C3]. pose proof (chain_first _ _ _ _ C3) as F. unfold get_prev in C2. unfold get_next in F.
    destruct (h x) as [v |]; [| discriminate C2]. injection C2 as C2. injection F as F. rewrite C2, N.eqb_refl, F.
    apply IH; [exact C3 | inlist | lia].
Qed.
(** In finite memory the check ends, and it accepts exactly lists. *)
Theorem check_exact h D node : (forall q, h q <> None -> In q D) ->
  exists r, list_check (length D) h node = Some r /\ (r = CGood <-> exists l, has_nodes h node l).
Proof.
  intros HD. unfold list_check. destruct (get_next h node) as [n |] eqn:E.
  - destruct (check_from (length D) h node node n) as [r |] eqn:C.
    + exists r. split; [reflexivity |]. split.
      * intros ->. destruct (check_good h node (length D) node n C E) as (l & C1 & NI & _).
        exists l. split; [apply (chain_nodup h); assumption | exact C1].
      * intros (l & ND & C1). pose proof (chain_first _ _ _ _ C1) as F. rewrite E in F. injection F as ->.
        inversion ND; subst. rewrite check_from_chain in C; [congruence | exact C1 | assumption |].
        apply Nat.le_trans with (length (node :: l)); [simpl; lia |]. apply NoDup_incl_length; [exact ND |].
        intros q Q. apply HD. apply (chain_live _ _ _ _ C1). clear - Q. simpl in *. rewrite in_app_iff. tauto.
    + exfalso. revert C. apply (check_ends h node D HD (length D) [] n); simpl; auto; [repeat constructor; auto | exact (next_live _ _ _ E) | tauto | lia].
  - exists CFault. split; [reflexivity |]. split; [discriminate |]. intros (l & _ & C). rewrite (chain_first _ _ _ _ C) in E. discriminate E.
Qed.
