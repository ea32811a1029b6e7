(** Proofs for C64: programs with any number of lists. *)
Require Import Arith NArith List Bool Lia Permutation.
Require Import Verif.Xlate_Model Verif.List_Model Verif.List_Spec Verif.List_Proofs.
Import ListNotations.
Local Open Scope N_scope.

Lemma in_last {A} (l : list A) a : In (last l a) (a :: l).
Proof. destruct (rev_last l) as [-> | (l' & x & ->)]; [simpl; auto |]. rewrite last_app. simpl. rewrite in_app_iff. simpl. auto. Qed.
Lemma in_hd {A} (l : list A) a : In (hd a l) (a :: l).
Proof. destruct l; simpl; auto. Qed.

(** The same nodes, leading to another node *)
Lemma chain_retarget h h' a l b c : chain h a l b -> NoDup (a :: l) ->
  (forall q, In q (a :: l) -> q <> last l a -> get_next h' q = get_next h q) ->
  (forall q, In q l -> get_prev h' q = get_prev h q) ->
  get_next h' (last l a) = Some c -> get_prev h' c = Some (last l a) -> chain h' a l c.
Proof.
  intros C D A B E F. destruct (rev_last l) as [-> | (l' & x & ->)].
  - split; assumption.
  - rewrite last_app in *. apply chain_app. apply chain_app in C. destruct C as [C1 C2]. split; [| split; assumption].
    apply (chain_frame h); [exact C1 | |].
    + intros q Q. apply A; [inlist |]. intros ->. apply (nodup_rot (a :: l') [x]) in D. inversion D; subst. inlist.
    + intros q Q. apply B. exact Q.
Qed.
(** ... and coming from another one *)
Lemma chain_resource h h' a l b c : chain h a l b -> NoDup (l ++ [b]) ->
  (forall q, In q l -> get_next h' q = get_next h q) ->
  (forall q, In q (l ++ [b]) -> q <> hd b l -> get_prev h' q = get_prev h q) ->
  get_next h' c = Some (hd b l) -> get_prev h' (hd b l) = Some c -> chain h' c l b.
Proof.
  intros C D A B E F. destruct l as [| x l]; [split; assumption |]. simpl in *. destruct C as [_ C].
  split; [split; assumption |]. apply (chain_frame h); [exact C | |].
  - intros q Q. apply A. exact Q.
  - intros q Q. apply B; [auto |]. intros ->. inversion D; subst. auto.
Qed.

Lemma del_node h hd l1 n l2 : has_nodes h hd (l1 ++ n :: l2) ->
  exists h', list_del h n = Some h' /\ has_nodes h' hd (l1 ++ l2) /\ only (hd :: l1 ++ l2) h h' /\ same_live h h'.
Proof.
  intros R. apply ring_rot in R. destruct l2 as [| x l2]; simpl in R.
  - destruct (ring_del h n hd l1 R) as (h' & E & R' & O & SL). exists h'. rewrite app_nil_r. auto.
  - destruct (ring_del h n x (l2 ++ hd :: l1) R) as (h' & E & R' & O & SL). exists h'.
    split; [exact E |]. split; [apply ring_rot; exact R' |]. split; [| exact SL].
    intros q Q. apply O. intros I. apply Q. simpl in *. rewrite in_app_iff in *. simpl in *. tauto.
Qed.
Lemma add_after_node h hd l1 p l2 n : has_nodes h hd (l1 ++ p :: l2) -> live h n -> ~ In n (hd :: l1 ++ p :: l2) ->
  exists h', list_add_after h p n = Some h' /\ has_nodes h' hd (l1 ++ p :: n :: l2)
    /\ only (n :: hd :: l1 ++ p :: l2) h h' /\ same_live h h'.
Proof.
  intros R L Nn. apply ring_rot in R. destruct (ring_add_after h p _ n R L) as (h' & E & R' & O & SL); [inlist |].
  exists h'. split; [exact E |]. split; [apply ring_rot; exact R' |]. split; [| exact SL].
  intros q Q. apply O. intros I. apply Q. simpl in *. rewrite in_app_iff in *. simpl in *. tauto.
Qed.
Lemma add_before_node h hd l1 p l2 n : has_nodes h hd (l1 ++ p :: l2) -> live h n -> ~ In n (hd :: l1 ++ p :: l2) ->
  exists h', list_add_before h p n = Some h' /\ has_nodes h' hd (l1 ++ n :: p :: l2)
    /\ only (n :: hd :: l1 ++ p :: l2) h h' /\ same_live h h'.
Proof.
  intros R L Nn. apply ring_rot in R. destruct (ring_add_before h p _ n R L) as (h' & E & R' & O & SL); [inlist |].
  exists h'. split; [exact E |]. split; [| split; [| exact SL]].
  - rewrite <- app_assoc in R'. simpl in R'. apply ring_rot in R'. rewrite <- app_assoc in R'. exact R'.
  - intros q Q. apply O. intros I. apply Q. simpl in *. rewrite in_app_iff in *. simpl in *. tauto.
Qed.

Lemma store_ok h n x : live h n -> 
  (forall q, get_next (store h n x) q = if q =? n then Some (next x) else get_next h q)
  /\ (forall q, get_prev (store h n x) q = if q =? n then Some (prev x) else get_prev h q)
  /\ only [n] h (store h n x) /\ same_live h (store h n x).
Proof.
  intros L. unfold get_next, get_prev, only, same_live, live, store in *. repeat split; intros.
  - ends. - ends. - simpl in *. ends. exfalso; auto. - ends. - ends.
Qed.
Lemma swap_ok h o n x y : get_next h o = Some x -> get_prev h o = Some y -> live h n -> live h x -> live h y -> y <> n -> x <> n ->
  exists h', list_swap h o n = Some h'
  /\ becomes h h' (fun q => if q =? y then Some n else if q =? n then Some x else get_next h q)
       (fun q => if q =? x then Some n else if q =? n then Some y else get_prev h q) [n; x; y].
Proof.
  intros En Ep Ln Lx Ly D Dx. unfold list_swap.
  unfold get_next in En. unfold get_prev in Ep. destruct (h o) as [v |]; [| discriminate En].
  injection En as <-. injection Ep as <-. simpl bind.
  destruct (store_ok h n v Ln) as (NX & PV & O & SL).
  set (h1 := store h n v) in *. unfold live in Ln. destruct (h n) as [vn |]; [| congruence]. simpl bind.
  assert (G : get_next h1 n = Some (next v)) by (gets; ends). get_step.
  set_step alive h2.
  assert (G1 : get_prev h2 n = Some (prev v)) by (gets; ends). get_step.
  set_step alive h3.
  unfold becomes. split; [| split; [| split]]; intros; gets; auto; [only_ends | eauto].
Qed.
Lemma ring_swap h o x l n : has_nodes h o (x :: l) -> live h n -> ~ In n (o :: x :: l) ->
  exists h', list_swap h o n = Some h' /\ has_nodes h' n (x :: l) /\ only (n :: x :: l) h h' /\ same_live h h'.
Proof.
  intros [D C] Ln Nn. pose proof (chain_first _ _ _ _ C) as F. pose proof (chain_last _ _ _ _ C) as G. cbn [hd] in F.
  assert (L0 : last (x :: l) o = last l x).
  { destruct (rev_last l) as [-> | (l' & z & ->)]; [reflexivity |]. rewrite last_app. exact (last_app (x :: l') z o). }
  rewrite L0 in G. pose proof (in_last l x) as Hs.
  assert (Lx : live h x) by (apply (chain_live _ _ _ _ C); inlist).
  assert (Ly : live h (last l x)) by (apply (chain_live _ _ _ _ C); inlist).
  destruct (swap_ok h o n x (last l x) F G Ln Lx Ly) as (h' & E & NX & PV & O & SL); [intros W; rewrite W in *; inlist | inlist |].
  inversion D as [| ? ? D1 D2]; subst. assert (Nl : n <> last l x) by (intros W; rewrite <- W in Hs; inlist).
  exists h'. split; [exact E |]. split; [| split; [| exact SL]].
  2: { intros q Q. apply O. intros I. apply Q. clear - I Hs. simpl in *. intuition congruence. }
  split; [constructor; [inlist | assumption] |].
  destruct C as [_ C]. split.
  - split; [rewrite NX | rewrite PV]; ends.
  - apply (chain_retarget h h' x l o n); [exact C | exact D2 | | | |].
    + intros q Q Q'. rewrite NX. ends. exfalso. inlist.
    + intros q Q. rewrite PV. inversion D2; subst. ends; exfalso; inlist.
    + rewrite NX. ends.
    + rewrite PV. ends. inlist.
Qed.
Lemma swap_node h hd l1 o l2 n : has_nodes h hd (l1 ++ o :: l2) -> live h n -> ~ In n (hd :: l1 ++ o :: l2) ->
  exists h', list_swap h o n = Some h' /\ has_nodes h' hd (l1 ++ n :: l2)
    /\ only (n :: hd :: l1 ++ l2) h h' /\ same_live h h'.
Proof.
  intros R L Nn. apply ring_rot in R. 
  destruct (l2 ++ hd :: l1) as [| x l] eqn:E; [destruct l2; discriminate E |].
  destruct (ring_swap h o x l n R L) as (h' & E1 & R' & O & SL).
  { rewrite <- E. inlist. }
  rewrite <- E in R', O. exists h'. split; [exact E1 |]. split; [apply ring_rot; exact R' |]. split; [| exact SL].
  intros q Q. apply O. intros I. apply Q. simpl in *. rewrite in_app_iff in *. simpl in *. tauto.
Qed.

Lemma nodup_app_l {A} (l1 l2 : list A) : NoDup (l1 ++ l2) -> NoDup l1.
Proof. intros H. induction l1 as [| a l IH]; [constructor |]. inversion H; subst. constructor; [inlist | auto]. Qed.
Lemma nodup_app_r {A} (l1 l2 : list A) : NoDup (l1 ++ l2) -> NoDup l2.
Proof. intros H. induction l1 as [| a l IH]; [exact H |]. inversion H; auto. Qed.
Lemma nodup_app_no {A} (l1 l2 : list A) q : NoDup (l1 ++ l2) -> In q l1 -> ~ In q l2.
Proof.
  intros H I J. induction l1 as [| a l IH]; [exact I |]. inversion H; subst.
  destruct I as [-> | I]; [inlist | auto].
Qed.

(** Two lists sewn together *)
Ltac apart W a b := ends; exfalso; first
  [ inlist | eapply (W a); inlist | eapply (W b); inlist | eapply W; eassumption
  | match goal with e : _ = _ |- _ => solve [eapply W; [eassumption |]; first [rewrite <- e; eassumption | rewrite e; eassumption]] end ].
Lemma append_ok h to l from m : chain h to l to -> chain h from m from -> NoDup ((to :: l) ++ from :: m) ->
  exists h', list_append_list h to from = Some h' /\ has_nodes h' to (l ++ m) /\ has_nodes h' from []
    /\ only ((to :: l) ++ from :: m) h h' /\ same_live h h'.
Proof.
  intros C1 C2 D. pose proof (chain_last _ _ _ _ C1) as P1. pose proof (chain_last _ _ _ _ C2) as P2.
  pose proof (in_last l to) as I1. pose proof (in_last m from) as I2.
  pose proof (chain_live _ _ _ _ C1) as L1. pose proof (chain_live _ _ _ _ C2) as L2.
  assert (W : forall q, In q (to :: l) -> In q (from :: m) -> False).
  { intros q A B. exact (nodup_app_no _ _ q D A B). }
  unfold list_append_list. get_step. get_step.
  set_step ltac:(apply L1; inlist) h1.
  set_step ltac:(apply SL; apply L2; inlist) h2.
  set_step ltac:(apply SL0; apply SL; apply L1; inlist) h3.
  set_step ltac:(apply SL1; apply SL0; apply SL; apply L2; inlist) h4.
  assert (R : has_nodes h4 to (l ++ from :: m)).
  { split; [exact D |]. apply chain_app. split.
    - apply (chain_retarget h h4 to l to from); [exact C1 | exact (nodup_app_l _ _ D) | | | |].
      + intros q Q Q'. gets. apart W from to.
      + intros q Q. apply nodup_app_l in D. inversion D; subst. gets. apart W from to.
      + gets. apart W from to.
      + gets. apart W from to.
    - apply (chain_retarget h h4 from m from to); [exact C2 | exact (nodup_app_r _ _ D) | | | |].
      + intros q Q Q'. gets. apart W from to.
      + intros q Q. pose proof (nodup_app_r _ _ D) as D'. inversion D'; subst. gets. apart W from to.
      + gets. apart W from to.
      + gets. apart W from to. }
  destruct (del_node h4 to l from m R) as (h5 & E5 & R5 & O5 & SL5). rewrite E5. simpl bind.
  assert (Lf : live h5 from) by (apply SL5, SL2, SL1, SL0, SL, L2; inlist).
  destruct (init_ok h5 from Lf) as (h6 & E6 & NX6 & PV6 & O6 & SL6). exists h6.
  split; [exact E6 |].
  assert (NF : ~ In from (to :: l ++ m)).
  { apply (nodup_rot (to :: l) (from :: m)) in D. inversion D; subst. inlist. }
  split; [| split; [| split]].
  - destruct R5 as [R5 R5']. split; [exact R5 |]. apply (chain_frame h5); [exact R5' | |].
    + intros q Q. rewrite NX6. ends. 
    + intros q Q. rewrite PV6. ends. exfalso. inlist.
  - split; [constructor; [inlist | constructor] |]. split; [rewrite NX6 | rewrite PV6]; ends.
  - intros q Q. rewrite O6 by inlist. rewrite O5 by inlist. 
    assert (q <> to /\ q <> from /\ q <> last l to /\ q <> last m from) as (A1 & A2 & A3 & A4).
    { repeat split; intros ->; apply Q; rewrite in_app_iff; simpl in *; tauto. }
    rewrite O2, O1, O0, O; simpl; intuition congruence.
  - repeat (eapply live_trans; [eassumption |]). apply live_refl.
Qed.
Lemma prepend_ok h to l from m : chain h to l to -> chain h from m from -> NoDup ((to :: l) ++ from :: m) ->
  exists h', list_prepend_list h to from = Some h' /\ has_nodes h' to (m ++ l) /\ has_nodes h' from []
    /\ only ((to :: l) ++ from :: m) h h' /\ same_live h h'.
Proof.
  intros C1 C2 D. pose proof (chain_first _ _ _ _ C1) as P1. pose proof (chain_last _ _ _ _ C2) as P2.
  pose proof (in_hd l to) as I1. pose proof (in_last m from) as I2.
  pose proof (chain_live _ _ _ _ C1) as L1. pose proof (chain_live _ _ _ _ C2) as L2.
  assert (W : forall q, In q (to :: l) -> In q (from :: m) -> False).
  { intros q A B. exact (nodup_app_no _ _ q D A B). }
  unfold list_prepend_list. get_step. get_step.
  set_step ltac:(apply L1; inlist) h1.
  set_step ltac:(apply SL; apply L2; inlist) h2.
  set_step ltac:(apply SL0; apply SL; apply L1; inlist) h3.
  set_step ltac:(apply SL1; apply SL0; apply SL; apply L2; inlist) h4.
  assert (D1 : NoDup (to :: from :: m ++ l)).
  { eapply Permutation_NoDup; [| exact D]. simpl. constructor. rewrite Permutation_app_comm. simpl. reflexivity. }
  assert (R : has_nodes h4 to (from :: m ++ l)).
  { split; [exact D1 |]. split.
    - assert (Z1 : to <> last m from) by (intros Z; rewrite <- Z in I2; apply (W to); inlist).
      assert (Z2 : from <> hd to l) by (intros Z; rewrite <- Z in I1; apply (W from); inlist).
      split; gets; ends.
    - assert (T : chain h4 from m (hd to l)).
      { apply (chain_retarget h h4 from m from); [exact C2 | exact (nodup_app_r _ _ D) | | | |].
        + intros q Q Q'. assert (q <> to) by (intros ->; apply (W to); inlist). gets. ends.
        + intros q Q. pose proof (nodup_app_r _ _ D) as D'.
          assert (q <> hd to l) by (intros ->; exact (W _ I1 (or_intror Q))).
          assert (q <> from) by (intros ->; inversion D'; auto). gets. ends.
        + gets. ends.
        + gets. ends. }
      destruct l as [| y l]; simpl hd in *; [rewrite app_nil_r; exact T |].
      apply nodup_app_l in D. inversion D as [| ? ? X1 X2]; subst. inversion X2 as [| ? ? X3 X4]; subst.
      apply chain_app. split; [exact T |]. destruct C1 as [_ C1]. apply (chain_frame h); [exact C1 | |].
      + intros q Q. assert (q <> to) by inlist.
        assert (q <> last m from) by (intros ->; exact (W _ (or_intror Q) I2)). gets. ends.
      + intros q Q. assert (q <> y) by inlist. assert (q <> from) by (intros ->; apply (W from); inlist). gets. ends. }
  destruct (del_node h4 to [] from (m ++ l) R) as (h5 & E5 & R5 & O5 & SL5). rewrite E5. simpl bind. simpl app in *.
  assert (Lf : live h5 from) by (apply SL5, SL2, SL1, SL0, SL, L2; inlist).
  destruct (init_ok h5 from Lf) as (h6 & E6 & NX6 & PV6 & O6 & SL6). exists h6.
  split; [exact E6 |].
  assert (NF : ~ In from (to :: m ++ l)).
  { apply (nodup_rot (to :: l) (from :: m)) in D. inversion D; subst. inlist. }
  split; [| split; [| split]].
  - destruct R5 as [R5 R5']. split; [exact R5 |]. apply (chain_frame h5); [exact R5' | |].
    + intros q Q. rewrite NX6. ends. 
    + intros q Q. rewrite PV6. ends. exfalso. inlist.
  - split; [constructor; [inlist | constructor] |]. split; [rewrite NX6 | rewrite PV6]; ends.
  - intros q Q. rewrite O6 by inlist. rewrite O5 by inlist. 
    assert (q <> to /\ q <> from /\ q <> hd to l /\ q <> last m from) as (A1 & A2 & A3 & A4).
    { repeat split; intros ->; apply Q; simpl in *; rewrite in_app_iff; simpl in *; tauto. }
    rewrite O2, O1, O0, O; simpl; intuition congruence.
  - repeat (eapply live_trans; [eassumption |]). apply live_refl.
Qed.
