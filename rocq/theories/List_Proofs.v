(** Proofs for C64: the operations on lists in memory. *)
Require Import Arith NArith List Bool Lia Permutation.
Require Import Verif.Xlate_Model Verif.List_Model Verif.List_Spec.
Import ListNotations.
Local Open Scope N_scope.

Ltac ends := repeat match goal with
  | |- context [?a =? ?b] => destruct (N.eqb_spec a b)
  | H : context [?a =? ?b] |- _ => destruct (N.eqb_spec a b)
  end; subst; try congruence; auto.

(** ** Memory *)
Definition live (h : heap) (p : N) : Prop := h p <> None.
Definition same_live (h h' : heap) : Prop := forall q, live h' q <-> live h q.

Lemma next_live h p x : get_next h p = Some x -> live h p.
Proof. unfold get_next, live. destruct (h p); congruence. Qed.
Lemma prev_live h p x : get_prev h p = Some x -> live h p.
Proof. unfold get_prev, live. destruct (h p); congruence. Qed.

Lemma set_next_ok h p v : live h p -> exists h', set_next h p v = Some h'
  /\ (forall q, get_next h' q = if q =? p then Some v else get_next h q)
  /\ (forall q, get_prev h' q = get_prev h q)
  /\ only [p] h h' /\ same_live h h'.
Proof.
  unfold live, set_next. intros L. destruct (h p) as [n |] eqn:E; [| congruence].
  eexists. split; [reflexivity |]. unfold get_next, get_prev, only, same_live, live, store. repeat split; intros.
  - ends.
  - ends. rewrite E. reflexivity.
  - simpl in H. ends. exfalso. auto.
  - ends.
  - ends. 
Qed.
Lemma set_prev_ok h p v : live h p -> exists h', set_prev h p v = Some h'
  /\ (forall q, get_next h' q = get_next h q)
  /\ (forall q, get_prev h' q = if q =? p then Some v else get_prev h q)
  /\ only [p] h h' /\ same_live h h'.
Proof.
  unfold live, set_prev. intros L. destruct (h p) as [n |] eqn:E; [| congruence].
  eexists. split; [reflexivity |]. unfold get_next, get_prev, only, same_live, live, store. repeat split; intros.
  - ends. rewrite E. reflexivity.
  - ends.
  - simpl in H. ends. exfalso. auto.
  - ends.
  - ends. 
Qed.

(** The state of all pointers after an operation *)
Definition becomes (h h' : heap) (nx pv : N -> option N) (s : list N) : Prop :=
  (forall q, get_next h' q = nx q) /\ (forall q, get_prev h' q = pv q) /\ only s h h' /\ same_live h h'.

Ltac get_step :=
  match goal with
  | E : get_next ?h ?p = Some ?x |- context [bind (get_next ?h ?p)] => rewrite E; simpl bind
  | E : get_prev ?h ?p = Some ?x |- context [bind (get_prev ?h ?p)] => rewrite E; simpl bind
  end.
Ltac set_step L h' :=
  match goal with
  | |- context [bind (set_next ?h ?p ?v)] =>
      let e := fresh "E" in let a := fresh "NX" in let b := fresh "PV" in let c := fresh "O" in let d := fresh "SL" in
      destruct (set_next_ok h p v) as (h' & e & a & b & c & d); [L | rewrite e; simpl bind]
  | |- context [bind (set_prev ?h ?p ?v)] =>
      let e := fresh "E" in let a := fresh "NX" in let b := fresh "PV" in let c := fresh "O" in let d := fresh "SL" in
      destruct (set_prev_ok h p v) as (h' & e & a & b & c & d); [L | rewrite e; simpl bind]
  | |- context [set_next ?h ?p ?v = Some _] =>
      let e := fresh "E" in let a := fresh "NX" in let b := fresh "PV" in let c := fresh "O" in let d := fresh "SL" in
      destruct (set_next_ok h p v) as (h' & e & a & b & c & d); [L | exists h'; split; [exact e |]]
  | |- context [set_prev ?h ?p ?v = Some _] =>
      let e := fresh "E" in let a := fresh "NX" in let b := fresh "PV" in let c := fresh "O" in let d := fresh "SL" in
      destruct (set_prev_ok h p v) as (h' & e & a & b & c & d); [L | exists h'; split; [exact e |]]
  end.
Ltac alive := repeat match goal with SL : same_live _ ?h |- live ?h _ => apply SL end; eauto using next_live, prev_live.
Ltac gets := repeat match goal with
  | H : forall q, get_next ?h q = _ |- context [get_next ?h _] => rewrite H
  | H : forall q, get_prev ?h q = _ |- context [get_prev ?h _] => rewrite H
  end.
Ltac only_ends := unfold only in *; intros q Nq; simpl in Nq;
  repeat match goal with O : forall q, ~ In q ?s -> ?h q = _ |- ?h _ = _ => rewrite O by (simpl; intuition congruence) end; reflexivity.
Lemma live_trans h1 h2 h3 : same_live h1 h2 -> same_live h2 h3 -> same_live h1 h3.
Proof. unfold same_live. intros A B q. rewrite (B q). apply A. Qed.
Lemma live_refl h : same_live h h. Proof. intros q. tauto. Qed.
#[export] Hint Resolve live_trans live_refl : core.

Lemma init_ok h p : live h p -> exists h', list_head_init h p = Some h'
  /\ becomes h h' (fun q => if q =? p then Some p else get_next h q) (fun q => if q =? p then Some p else get_prev h q) [p].
Proof.
  intros L. unfold list_head_init.
  set_step ltac:(exact L) h1. set_step alive h2.
  unfold becomes. split; [| split; [| split]]; intros; gets; auto; [only_ends | eauto].
Qed.

Lemma add_after_ok h p n s : get_next h p = Some s -> live h n -> live h s -> n <> p ->
  exists h', list_add_after h p n = Some h'
  /\ becomes h h' (fun q => if q =? p then Some n else if q =? n then Some s else get_next h q)
       (fun q => if q =? s then Some n else if q =? n then Some p else get_prev h q) [p; n; s].
Proof.
  intros E Ln Ls D. unfold list_add_after. get_step.
  set_step ltac:(exact Ln) h1. set_step alive h2.
  assert (G : get_next h2 p = Some s) by (gets; ends). get_step.
  set_step alive h3. set_step alive h4.
  unfold becomes. split; [| split; [| split]]; intros; gets; auto; [only_ends | eauto].
Qed.
Lemma add_before_ok h p n s : get_prev h p = Some s -> live h n -> live h s -> n <> p ->
  exists h', list_add_before h p n = Some h'
  /\ becomes h h' (fun q => if q =? s then Some n else if q =? n then Some p else get_next h q)
       (fun q => if q =? p then Some n else if q =? n then Some s else get_prev h q) [p; n; s].
Proof.
  intros E Ln Ls D. unfold list_add_before.
  set_step ltac:(exact Ln) h1.
  assert (G : get_prev h1 p = Some s) by (gets; ends). get_step.
  set_step alive h2.
  assert (G2 : get_prev h2 p = Some s) by (gets; ends). get_step.
  set_step alive h3. set_step alive h4.
  unfold becomes. split; [| split; [| split]]; intros; gets; auto; [only_ends | eauto].
Qed.
Lemma del_ok h n x y : get_next h n = Some x -> get_prev h n = Some y -> live h x -> live h y -> x <> n -> 
  exists h', list_del h n = Some h'
  /\ becomes h h' (fun q => if q =? y then Some x else get_next h q) (fun q => if q =? x then Some y else get_prev h q) [x; y].
Proof.
  intros En Ep Lx Ly D. unfold list_del. get_step. get_step.
  set_step ltac:(exact Lx) h1.
  assert (G1 : get_prev h1 n = Some y) by (gets; ends).
  assert (G2 : get_next h1 n = Some x) by (gets; ends). get_step. get_step.
  set_step alive h2.
  unfold becomes. split; [| split; [| split]]; intros; gets; auto; [only_ends | eauto].
Qed.

(** ** Chains *)
Lemma chain_app h a l1 x l2 b : chain h a (l1 ++ x :: l2) b <-> chain h a l1 x /\ chain h x l2 b.
Proof. revert a. induction l1 as [| y l1 IH]; intros a; simpl; [tauto |]. rewrite IH. tauto. Qed.
Lemma chain_frame h h' a l b : chain h a l b ->
  (forall q, In q (a :: l) -> get_next h' q = get_next h q) ->
  (forall q, In q (l ++ [b]) -> get_prev h' q = get_prev h q) -> chain h' a l b.
Proof.
  revert a. induction l as [| x l IH]; intros a C A B; simpl in *.
  - destruct C as [C1 C2]. split; [rewrite A | rewrite B]; auto.
  - destruct C as [[C1 C2] C3]. split; [split; [rewrite A | rewrite B]; auto |].
    apply IH; [exact C3 | |]; intros q Q; [apply A | apply B]; simpl; tauto.
Qed.
Lemma chain_live h a l b : chain h a l b -> forall q, In q (a :: l ++ [b]) -> live h q.
Proof.
  revert a. induction l as [| x l IH]; intros a C q Q; simpl in *.
  - destruct C as [C1 C2]. destruct Q as [-> | [-> | []]]; eauto using next_live, prev_live.
  - destruct C as [[C1 C2] C3]. destruct Q as [-> | Q]; [eauto using next_live |]. exact (IH x C3 q Q).
Qed.
(** First and last pointer *)
Lemma chain_first h a l b : chain h a l b -> get_next h a = Some (hd b l).
Proof. destruct l; simpl; intros C; [exact (proj1 C) | exact (proj1 (proj1 C))]. Qed.
Lemma chain_last h a l b : chain h a l b -> get_prev h b = Some (last l a).
Proof.
  revert a. induction l as [| x l IH]; intros a C; [exact (proj2 C) |].
  destruct C as [_ C]. rewrite (IH x C). destruct l as [| y l]; [reflexivity |]. cbn [last].
  generalize y. clear. induction l as [| z l IH]; intros y; [reflexivity |]. apply (IH z).
Qed.

Lemma nodup_rot {A} (l1 l2 : list A) : NoDup (l1 ++ l2) -> NoDup (l2 ++ l1).
Proof. intros H. eapply Permutation_NoDup; [apply Permutation_app_comm | exact H]. Qed.
Lemma ring_rot h hd l1 p l2 : has_nodes h hd (l1 ++ p :: l2) <-> has_nodes h p (l2 ++ hd :: l1).
Proof.
  unfold has_nodes. rewrite !chain_app. split; intros (D & C1 & C2); (split; [| tauto]).
  - exact (nodup_rot (hd :: l1) (p :: l2) D).
  - exact (nodup_rot (p :: l2) (hd :: l1) D).
Qed.
Lemma rev_last {A} (l : list A) : l = [] \/ exists l' x, l = l' ++ [x].
Proof. destruct l as [| a l]; [auto |]. right. destruct (@exists_last _ (a :: l)) as (l' & x & E); [discriminate |]. eauto. Qed.
Lemma last_app {A} (l : list A) x d : last (l ++ [x]) d = x.
Proof. apply last_last. Qed.

(** ** At a node of a list, with the others around *)
Ltac inlist := simpl in *; rewrite ?in_app_iff in *; simpl in *; intuition congruence.

Lemma ring_add_after h p l n : has_nodes h p l -> live h n -> ~ In n (p :: l) ->
  exists h', list_add_after h p n = Some h' /\ has_nodes h' p (n :: l) /\ only (n :: p :: l) h h' /\ same_live h h'.
Proof.
  intros [D C] Ln Nn. pose proof (chain_first _ _ _ _ C) as F.
  assert (Hs : In (hd p l) (p :: l)) by (destruct l; simpl; auto).
  assert (Ls : live h (hd p l)) by (apply (chain_live _ _ _ _ C); destruct l; inlist).
  destruct (add_after_ok h p n (hd p l) F Ln Ls) as (h' & E & NX & PV & O & SL); [inlist |].
  exists h'. split; [exact E |]. split; [| split; [| exact SL]].
  2: { intros q Q. apply O. intros I. apply Q. clear - I Hs. simpl in *. intuition congruence. }
  split.
  - inversion D; subst. constructor; [| constructor; [| assumption]]; inlist.
  - cbn [chain]. split.
    + split; [rewrite NX | rewrite PV]; ends; exfalso; apply Nn; inlist.
    + destruct l as [| x l]; cbn [hd chain] in *.
      * split; [rewrite NX | rewrite PV]; ends; exfalso; apply Nn; inlist.
      * destruct C as [C1 C2]. split.
        { split; [rewrite NX | rewrite PV]; ends; exfalso; apply Nn; inlist. }
        { apply (chain_frame h); [exact C2 | |].
          - intros q Q. rewrite NX. inversion D; subst. ends; exfalso; inlist.
          - intros q Q. rewrite PV. inversion D as [| ? ? D1 D2]; subst. inversion D2; subst. ends; exfalso; inlist. }
Qed.
Lemma ring_add_before h p l n : has_nodes h p l -> live h n -> ~ In n (p :: l) ->
  exists h', list_add_before h p n = Some h' /\ has_nodes h' p (l ++ [n]) /\ only (n :: p :: l) h h' /\ same_live h h'.
Proof.
  intros [D C] Ln Nn. pose proof (chain_last _ _ _ _ C) as F.
  assert (Hs : In (last l p) (p :: l)).
  { destruct (rev_last l) as [-> | (l' & x & ->)]; [simpl; auto |]. rewrite last_app. inlist. }
  assert (Ls : live h (last l p)) by (apply (chain_live _ _ _ _ C); inlist).
  destruct (add_before_ok h p n (last l p) F Ln Ls) as (h' & E & NX & PV & O & SL); [inlist |].
  exists h'. split; [exact E |]. split; [| split; [| exact SL]].
  2: { intros q Q. apply O. intros I. apply Q. clear - I Hs. simpl in *. intuition congruence. }
  split.
  - apply (nodup_rot [n] (p :: l)). constructor; assumption.
  - apply chain_app. split.
    2: { simpl. split; [rewrite NX | rewrite PV]; ends; exfalso; apply Nn; inlist. }
    destruct (rev_last l) as [-> | (l' & x & ->)].
    + simpl in *. split; [rewrite NX | rewrite PV]; ends; exfalso; apply Nn; inlist.
    + rewrite last_app in *. apply chain_app. apply chain_app in C. destruct C as [C1 C2]. simpl in C2. split.
      * apply (chain_frame h); [exact C1 | |].
        -- intros q Q. rewrite NX. apply (nodup_rot (p :: l') [x]) in D. inversion D; subst. ends; exfalso; inlist.
        -- intros q Q. rewrite PV. inversion D; subst. ends; exfalso; inlist.
      * simpl. split; [rewrite NX | rewrite PV]; ends; exfalso; apply Nn; inlist.
Qed.
(** Deleting [n]: what remains is the list seen from the node behind it. *)
Lemma ring_del h n x l : has_nodes h n (x :: l) ->
  exists h', list_del h n = Some h' /\ has_nodes h' x l /\ only (x :: l) h h' /\ same_live h h'.
Proof.
  intros [D C]. pose proof (chain_first _ _ _ _ C) as F. pose proof (chain_last _ _ _ _ C) as G.
  cbn [hd] in F.
  assert (L0 : last (x :: l) n = last l x).
  { destruct (rev_last l) as [-> | (l' & z & ->)]; [reflexivity |]. rewrite last_app. exact (last_app (x :: l') z n). }
  rewrite L0 in G.
  assert (Hs : In (last l x) (x :: l)).
  { destruct (rev_last l) as [-> | (l' & z & ->)]; [simpl; auto |]. rewrite last_app. inlist. }
  assert (Lx : live h x) by (apply (chain_live _ _ _ _ C); inlist).
  assert (Ly : live h (last l x)) by (apply (chain_live _ _ _ _ C); inlist).
  assert (NX0 : x <> n) by (inversion D; subst; inlist).
  destruct (del_ok h n x (last l x) F G Lx Ly NX0) as (h' & E & NX & PV & O & SL).
  exists h'. split; [exact E |]. split; [| split; [| exact SL]].
  2: { intros q Q. apply O. intros I. apply Q. clear - I Hs. simpl in *. intuition congruence. }
  split; [inversion D; assumption |].
  destruct C as [_ C]. destruct (rev_last l) as [-> | (l' & z & ->)].
  - simpl. split; [rewrite NX | rewrite PV]; simpl; ends.
  - rewrite last_app in *. apply chain_app. apply chain_app in C. destruct C as [C1 C2]. split.
    + inversion D as [| ? ? D1 D2]; subst. apply (chain_frame h); [exact C1 | |].
      * intros q Q. rewrite NX. apply (nodup_rot (x :: l') [z]) in D2. inversion D2; subst. ends; exfalso; inlist.
      * intros q Q. rewrite PV. inversion D2; subst. ends; exfalso; inlist.
    + simpl. split; [rewrite NX | rewrite PV]; ends.
Qed.
