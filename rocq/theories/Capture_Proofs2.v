Require Import Arith NArith List Bool Lia ZifyBool ZifyN ZifyNat.
From Verif Require Import Word Capture_Model Capture_Spec Capture_Proofs.
Import ListNotations.
Local Open Scope N_scope.

(** ** Properties of all runs, whatever their outcome *)
(** Answers [E] that may come, what is said of each event, and of the result *)
Definition within {A} (E : list resp) (m : prog A) (T : event -> Prop) (P : A -> Prop) : Prop :=
  forall e, incl e E -> Forall T (fst (m e)) /\ snd (m e) <> Oob /\ forall a e', snd (m e) = Ret a e' -> incl e' E /\ P a.
Lemma within_ret A E (a : A) T (P : A -> Prop) : P a -> within E (ret a) T P.
Proof.
  intros HP e He. unfold ret; cbn. repeat split; [constructor | discriminate | |]; inversion H; subst; assumption.
Qed.
Lemma within_exit A E T (P : A -> Prop) : within E exit1 T P.
Proof. intros e He. unfold exit1; cbn. split; [constructor | split; discriminate]. Qed.
Lemma within_sys E c (T : event -> Prop) (P : resp -> Prop) : (forall r, In r E -> T (c, r) /\ P r) -> within E (sys c) T P.
Proof.
  intros HT e He. unfold sys. destruct e as [| r e]; cbn.
  - split; [constructor | split; discriminate].
  - destruct (HT r (He r (or_introl eq_refl))) as [H1 H2].
    split; [constructor; [exact H1 | constructor] | split; [discriminate |]].
    intros a e' H. inversion H; subst. split; [intros x Hx; apply He; right; exact Hx | exact H2].
Qed.
Lemma within_bind A B E (m : prog A) (f : A -> prog B) T P Q :
  within E m T P -> (forall a, P a -> within E (f a) T Q) -> within E (bind m f) T Q.
Proof.
  intros Hm Hf e He. destruct (Hm e He) as (H1 & H2 & H3). unfold bind.
  destruct (m e) as [l [a e1 | | |]]; cbn [fst snd] in *.
  - destruct (H3 a e1 eq_refl) as [He1 Ha]. destruct (Hf a Ha e1 He1) as (G1 & G2 & G3).
    destruct (f a e1) as [l2 r]; cbn [fst snd] in *. split; [apply Forall_app; split; assumption | split; assumption].
  - split; [exact H1 | split; discriminate].
  - elim H2; reflexivity.
  - split; [exact H1 | split; discriminate].
Qed.
Lemma within_must E c (T : event -> Prop) : (forall r, T (c, r)) -> within E (must c) T (fun _ => True).
Proof.
  intros HT. unfold must. apply within_bind with (P := fun _ => True).
  - apply within_sys. auto.
  - intros r _. destruct r; try apply within_exit; apply within_ret; exact I.
Qed.
Lemma within_for_all E f T ps : (forall p, In p ps -> within E (f p) T (fun _ => True)) -> within E (for_all f ps) T (fun _ => True).
Proof.
  induction ps as [| p ps IH]; cbn [for_all]; intros H; [apply within_ret; exact I |].
  apply within_bind with (P := fun _ => True); [apply H; left; reflexivity |].
  intros _ _. apply IH. intros q Hq. apply H. right. exact Hq.
Qed.
Lemma within_wait E p (T : event -> Prop) : (forall r, T (Wait p, r)) -> (forall s r, T (Cont p s, r)) ->
  within E (wait_for_group_stop p) T (fun _ => True).
Proof.
  intros H1 H2 e. remember (length e) as n eqn:Hn. assert (Hle : (length e <= n)%nat) by lia. clear Hn. revert e Hle.
  induction n as [| n IH]; intros e Hle He.
  - destruct e; [| cbn in Hle; lia]. cbn. split; [constructor | split; discriminate].
  - destruct e as [| r e1]; cbn [wait_for_group_stop]; [cbn; split; [constructor | split; discriminate] |].
    cbn [length] in Hle.
    assert (He1 : incl e1 E) by (intros x Hx; apply He; right; exact Hx).
    destruct r as [| c | | | s | nm]; try (cbn; split; [repeat constructor; apply H1 | split; discriminate]).
    + destruct (IH e1 ltac:(lia) He1) as (G1 & G2 & G3). destruct (wait_for_group_stop p e1) as [l x]; cbn [fst snd] in *.
      split; [constructor; auto | split; assumption].
    + destruct (IH e1 ltac:(lia) He1) as (G1 & G2 & G3).
      destruct (negb (stopped s)).
      { destruct (wait_for_group_stop p e1) as [l x]; cbn [fst snd] in *. split; [constructor; auto | split; assumption]. }
      destruct (event_of s =? EVENT_STOP).
      { cbn. split; [constructor; [apply H1 | constructor] | split; [discriminate |]].
        intros a e' H. inversion H; subst. split; [exact He1 | exact I]. }
      destruct e1 as [| r2 e2]; [cbn; split; [constructor; [apply H1 | constructor] | split; discriminate] |].
      cbn [length] in Hle.
      assert (He2 : incl e2 E) by (intros x Hx; apply He1; right; exact Hx).
      destruct (IH e2 ltac:(lia) He2) as (K1 & K2 & K3). destruct (wait_for_group_stop p e2) as [l x]; cbn [fst snd] in *.
      destruct r2; cbn [fst snd]; (split; [repeat constructor; auto | split; try discriminate; auto]).
Qed.
Lemma within_add E max T : forall names ps (B : list N),
  (length ps < max)%nat -> incl ps B -> (forall s, In s names -> Forall digit s -> In (decimal s) B) ->
  within E (add_tasks max ps names) T (fun ps' => incl ps' B).
Proof.
  induction names as [| s names IH]; intros ps B Hl Hp Hn; cbn [add_tasks]; [apply within_ret; exact Hp |].
  destruct (task_name s) as [| | p] eqn:E0.
  - apply IH; auto. intros t Ht. apply Hn. right. exact Ht.
  - apply within_exit.
  - destruct (Nat.leb_spec max (length ps)) as [C |]; [lia |].
    destruct (Nat.leb_spec max (length (ps ++ [p]))) as [C |]; [apply within_exit |].
    apply IH; auto.
    + apply task_name_tid in E0. destruct E0 as (_ & Hd & _ & ->).
      intros x Hx. apply in_app_iff in Hx. destruct Hx as [Hx | [<- | []]]; [apply Hp, Hx | apply Hn; [left; reflexivity | exact Hd]].
    + intros t Ht. apply Hn. right. exact Ht.
Qed.

(** Only the process and the threads that were listed are touched. *)
Definition mine (E : list resp) (before : list N) (pid p : N) : Prop :=
  p = pid \/ In p before \/ exists names s, In (Names names) E /\ In s names /\ Forall digit s /\ p = decimal s.
Theorem capture_within max before pid e : (length before < max)%nat ->
  snd (capture_all_threads max before pid e) <> Oob
  /\ forall c r, In (c, r) (fst (capture_all_threads max before pid e)) ->
       exists p, target c = Some p /\ mine e before pid p.
Proof.
  intros Hl.
  set (T := fun ev : event => exists p, target (fst ev) = Some p /\ mine e before pid p).
  assert (G : within e (capture_all_threads max before pid) T (fun _ => True)).
  { assert (HT : forall c r, target c = Some pid -> T (c, r)).
    { intros c r Hc. exists pid. split; [exact Hc | left; reflexivity]. }
    unfold capture_all_threads.
    apply within_bind with (P := fun _ => True); [apply within_must; intros; apply HT; reflexivity |]. intros _ _.
    apply within_bind with (P := fun _ => True); [apply within_must; intros; apply HT; reflexivity |]. intros _ _.
    apply within_bind with (P := fun _ => True); [apply within_wait; intros; apply HT; reflexivity |]. intros _ _.
    apply within_bind with (P := fun r => In r e); [apply within_sys; intros r Hr; split; [apply HT; reflexivity | exact Hr] |].
    intros r Hr. destruct r as [| | | | | names]; try apply within_exit.
    set (B := before ++ List.map decimal (filter (fun s => forallb isdigit s) names)).
    assert (HB : forall p, In p B -> mine e before pid p).
    { intros p Hp. apply in_app_iff in Hp. destruct Hp as [Hp | Hp]; [right; left; exact Hp |].
      apply in_map_iff in Hp. destruct Hp as (s & <- & Hs). apply filter_In in Hs. destruct Hs as [Hs Hd].
      right; right. exists names, s. repeat split; auto. apply Forall_forall. intros c Hc.
      rewrite forallb_forall in Hd. apply isdigit_spec, Hd, Hc. }
    assert (HT2 : forall c r p, In p B -> target c = Some p -> T (c, r)).
    { intros c r p Hp Hc. exists p. split; [exact Hc | apply HB, Hp]. }
    apply within_bind with (P := fun ps' => incl ps' B).
    { apply within_add; auto.
      - intros x Hx. apply in_app_iff. left. exact Hx.
      - intros s Hs Hd. apply in_app_iff. right. apply in_map. apply filter_In. split; [exact Hs |].
        apply forallb_forall. intros c Hc. rewrite Forall_forall in Hd. apply isdigit_spec, Hd, Hc. }
    intros ps' Hps.
    apply within_bind with (P := fun _ => True).
    { apply within_for_all. intros p Hp. destruct (p =? pid); [apply within_ret; exact I |].
      apply within_must. intros r. apply (HT2 _ r p); [apply Hps, Hp | reflexivity]. }
    intros _ _. apply within_bind with (P := fun _ => True).
    { apply within_for_all. intros p Hp. destruct (p =? pid); [apply within_ret; exact I |].
      apply within_wait; intros; apply (HT2 _ _ p); try (apply Hps, Hp); reflexivity. }
    intros _ _. apply within_bind with (P := fun _ => True).
    { apply within_for_all. intros p Hp. apply within_must. intros r. apply (HT2 _ r p); [apply Hps, Hp | reflexivity]. }
    intros _ _. apply within_bind with (P := fun _ => True); [apply within_must; intros; apply HT; reflexivity |].
    intros _ _. apply within_ret. exact I. }
  destruct (G e (incl_refl e)) as (G1 & G2 & _). split; [exact G2 |].
  intros c r Hin. rewrite Forall_forall in G1. exact (G1 _ Hin).
Qed.

(** ** The answers are taken in order *)
Definition orderly {A} (m : prog A) : Prop :=
  forall e, exists rest, e = List.map snd (fst (m e)) ++ rest
    /\ (forall a e', snd (m e) = Ret a e' -> e' = rest) /\ (snd (m e) = Waiting -> rest = []).
Lemma orderly_ret A (a : A) : orderly (ret a).
Proof. intros e. exists e. unfold ret; cbn. repeat split; [intros x e' H; inversion H; reflexivity | discriminate]. Qed.
Lemma orderly_exit A : orderly (@exit1 A).
Proof. intros e. exists e. unfold exit1; cbn. repeat split; discriminate. Qed.
Lemma orderly_oob A : orderly (@oob A).
Proof. intros e. exists e. unfold oob; cbn. repeat split; discriminate. Qed.
Lemma orderly_sys c : orderly (sys c).
Proof.
  intros e. unfold sys. destruct e as [| r e]; cbn.
  - exists []. repeat split; discriminate.
  - exists e. repeat split; [intros x e' H; inversion H; reflexivity | discriminate].
Qed.
Lemma orderly_bind A B (m : prog A) (f : A -> prog B) : orderly m -> (forall a, orderly (f a)) -> orderly (bind m f).
Proof.
  intros Hm Hf e. destruct (Hm e) as (rest & E & H1 & H2). unfold bind.
  destruct (m e) as [l [a e1 | | |]]; cbn [fst snd] in *.
  - specialize (H1 a e1 eq_refl). subst e1. destruct (Hf a rest) as (rest2 & E2 & G1 & G2).
    destruct (f a rest) as [l2 r]; cbn [fst snd] in *. exists rest2. split; [| split; assumption].
    rewrite map_app, <- app_assoc. unfold event in *. rewrite <- E2. exact E.
  - exists rest. repeat split; [exact E | discriminate | discriminate].
  - exists rest. repeat split; [exact E | discriminate | discriminate].
  - exists rest. split; [exact E | split; [discriminate | intros _; apply H2; reflexivity]].
Qed.
Lemma orderly_must c : orderly (must c).
Proof. apply orderly_bind; [apply orderly_sys | intros []; try apply orderly_ret; apply orderly_exit]. Qed.
Lemma orderly_for_all f ps : (forall p, orderly (f p)) -> orderly (for_all f ps).
Proof. intros H. induction ps as [| p ps IH]; [apply orderly_ret | apply orderly_bind; [apply H | intros _; exact IH]]. Qed.
Lemma orderly_cons l r x (e rest : list resp) (u : list event * res unit) p :
  e = List.map snd (fst u) ++ rest -> l = (p, r) :: fst u -> x = snd u ->
  r :: e = List.map snd (fst (l, x)) ++ rest.
Proof. intros -> -> ->. reflexivity. Qed.
Lemma orderly_wait p : orderly (wait_for_group_stop p).
Proof.
  intros e. remember (length e) as n eqn:Hn. assert (Hle : (length e <= n)%nat) by lia. clear Hn. revert e Hle.
  induction n as [| n IH]; intros e Hle.
  - destruct e; [| cbn in Hle; lia]. exists []. cbn. repeat split; discriminate.
  - destruct e as [| r e1]; [exists []; cbn; repeat split; discriminate |]. cbn [wait_for_group_stop]. cbn [length] in Hle.
    destruct r as [| c | | | s | nm]; try (exists e1; cbn; repeat split; discriminate).
    + destruct (IH e1 ltac:(lia)) as (rest & E & G). destruct (wait_for_group_stop p e1) as [l x]. exists rest.
      split; [cbn in *; rewrite E at 1; reflexivity | exact G].
    + destruct (negb (stopped s)).
      { destruct (IH e1 ltac:(lia)) as (rest & E & G). destruct (wait_for_group_stop p e1) as [l x]. exists rest.
        split; [cbn in *; rewrite E at 1; reflexivity | exact G]. }
      destruct (event_of s =? EVENT_STOP).
      { exists e1. cbn. repeat split; [intros a e' H; inversion H; reflexivity | discriminate]. }
      destruct e1 as [| r2 e2]; [exists []; cbn; repeat split; discriminate |]. cbn [length] in Hle.
      destruct (IH e2 ltac:(lia)) as (rest & E & G). destruct (wait_for_group_stop p e2) as [l x].
      destruct r2; try (exists rest; split; [cbn in *; rewrite E at 1; reflexivity | exact G]).
      exists e2. cbn. repeat split; discriminate.
Qed.
Lemma orderly_add max : forall names ps, orderly (add_tasks max ps names).
Proof.
  induction names as [| s names IH]; intros ps; cbn [add_tasks]; [apply orderly_ret |].
  destruct (task_name s); [apply IH | apply orderly_exit |].
  destruct (max <=? length ps)%nat; [apply orderly_oob |]. destruct (max <=? length (ps ++ [p]))%nat; [apply orderly_exit | apply IH].
Qed.
Lemma orderly_capture max ps pid : orderly (capture_all_threads max ps pid).
Proof.
  unfold capture_all_threads.
  apply orderly_bind; [apply orderly_must | intros _]. apply orderly_bind; [apply orderly_must | intros _].
  apply orderly_bind; [apply orderly_wait | intros _]. apply orderly_bind; [apply orderly_sys | intros r].
  destruct r; try apply orderly_exit.
  apply orderly_bind; [apply orderly_add | intros q].
  apply orderly_bind; [apply orderly_for_all; intros p; destruct (p =? pid); [apply orderly_ret | apply orderly_must] | intros _].
  apply orderly_bind; [apply orderly_for_all; intros p; destruct (p =? pid); [apply orderly_ret | apply orderly_wait] | intros _].
  apply orderly_bind; [apply orderly_for_all; intros p; apply orderly_must | intros _].
  apply orderly_bind; [apply orderly_must | intros _]. apply orderly_ret.
Qed.
Lemma orderly_err A c : orderly (@err_parent A c).
Proof. apply orderly_bind; [apply orderly_sys | intros _; apply orderly_exit]. Qed.
Lemma orderly_wait_child c : orderly (wait_child c).
Proof.
  intros e. induction e as [| r e IH]; [exists []; cbn; repeat split; discriminate |]. cbn [wait_child].
  destruct r as [| q | | | s | nm]; try (destruct (orderly_err N c e) as (rest & E & G); destruct (err_parent c e) as [l x];
    exists rest; split; [cbn in *; rewrite E at 1; reflexivity | exact G]).
  - destruct IH as (rest & E & G). destruct (wait_child c e) as [l x]. exists rest.
    split; [cbn in *; rewrite E at 1; reflexivity | exact G].
  - exists e. cbn. repeat split; [intros a e' H; inversion H; reflexivity | discriminate].
Qed.
Lemma orderly_exec max ps : orderly (do_exec max ps).
Proof.
  unfold do_exec. apply orderly_bind; [apply orderly_sys | intros r]. destruct r as [| c | | | |]; try apply orderly_exit.
  apply orderly_bind; [apply orderly_wait_child | intros s1]. destruct (_ || _)%bool; [apply orderly_err |].
  apply orderly_bind; [apply orderly_sys | intros r1].
  assert (G : orderly (do s <- wait_child c in
              if (negb (stopped s) || negb (stopsig s =? SIGSTOP)) || negb (event_of s =? EVENT_STOP) then err_parent c
              else do _ <- sys (Cont c 0) in do s <- wait_child c in
                if (negb (stopped s) || negb (stopsig s =? SIGTRAP)) || negb (event_of s =? EVENT_EXEC) then err_parent c
                else if (max <=? length ps)%nat then oob else ret (ps ++ [c], c))).
  { apply orderly_bind; [apply orderly_wait_child | intros s2]. destruct (_ || _)%bool; [apply orderly_err |].
    apply orderly_bind; [apply orderly_sys | intros r2]. apply orderly_bind; [apply orderly_wait_child | intros s3].
    destruct (_ || _)%bool; [apply orderly_err |]. destruct (max <=? length ps)%nat; [apply orderly_oob | apply orderly_ret]. }
  destruct r1; try exact G. apply orderly_err.
Qed.
Theorem orderly_both max ps pid e :
  (forall l x, capture_all_threads max ps pid e = (l, x) -> exists rest, e = List.map snd l ++ rest /\ (x = Waiting -> rest = []))
  /\ (forall l x, do_exec max ps e = (l, x) -> exists rest, e = List.map snd l ++ rest /\ (x = Waiting -> rest = [])).
Proof.
  split; intros l x H.
  - destruct (orderly_capture max ps pid e) as (rest & E & _ & G). rewrite H in *. exists rest. auto.
  - destruct (orderly_exec max ps e) as (rest & E & _ & G). rewrite H in *. exists rest. auto.
Qed.

(** ** Why the tracer exits *)
(** Answers that the calls can have *)
Definition proper (ev : event) : Prop :=
  match fst ev, snd ev with
  | Fork, Child _ | Fork, Fail => True
  | Wait _, Fail | Wait _, Intr | Wait _, Status _ => True
  | OpenTasks _, Fail | OpenTasks _, Names _ => True
  | Seize _, Ok | Seize _, Fail | Kill _ _, Ok | Kill _ _, Fail | Cont _ _, Ok | Cont _ _, Fail
  | Interrupt _, Ok | Interrupt _, Fail => True
  | _, _ => False
  end.
Definition exits {A} (m : prog A) (W : list event -> Prop) : Prop :=
  forall e l, m e = (l, Exit) -> Forall proper l -> W l.
(** It was refused something. *)
Definition refused (l : list event) : Prop := exists l0 c, l = l0 ++ [(c, Fail)].
Lemma refused_app l l' : refused l' -> refused (l ++ l').
Proof. intros (l0 & c & ->). exists (l ++ l0), c. rewrite app_assoc. reflexivity. Qed.
Lemma exits_bind A B (m : prog A) (f : A -> prog B) (W : list event -> Prop) (V : A -> list event -> Prop) :
  exits m W -> (forall e l a e', m e = (l, Ret a e') -> Forall proper l -> V a l) ->
  (forall a l1, V a l1 -> exits (f a) (fun l2 => W (l1 ++ l2))) -> exits (bind m f) W.
Proof.
  intros Hm HV Hf e l H Hp. unfold bind in H. destruct (m e) as [l1 [a e1 | | |]] eqn:E; try discriminate H.
  - destruct (f a e1) as [l2 r] eqn:E2. inversion H; subst. apply Forall_app in Hp. destruct Hp as [Hp1 Hp2].
    eapply Hf; [eapply HV; eassumption | exact E2 | exact Hp2].
  - inversion H; subst. eapply Hm; eassumption.
Qed.
Lemma exits_never A (m : prog A) W : (forall e, snd (m e) <> Exit) -> exits m W.
Proof. intros H e l E. elim (H e). rewrite E. reflexivity. Qed.
Lemma exits_weak A (m : prog A) (W W' : list event -> Prop) : (forall l, W l -> W' l) -> exits m W -> exits m W'.
Proof. intros H Hm e l E Hp. eapply H, Hm; eassumption. Qed.
Lemma exits_must c : exits (must c) refused.
Proof.
  intros e l H Hp. unfold must, bind, sys, exit1, ret in H. destruct e as [| r e]; [discriminate H |].
  destruct r; inversion H; subst. exists [], c. reflexivity.
Qed.
Lemma exits_for_all f ps : (forall p, exits (f p) refused) -> exits (for_all f ps) refused.
Proof.
  intros H. induction ps as [| p ps IH]; cbn [for_all]; [apply exits_never; discriminate |].
  apply exits_bind with (V := fun _ _ => True); [apply H | auto |].
  intros _ l1 _. eapply exits_weak; [| exact IH]. apply refused_app.
Qed.
Lemma exits_wait p : exits (wait_for_group_stop p) refused.
Proof.
  intros e. remember (length e) as n eqn:Hn. assert (Hle : (length e <= n)%nat) by lia. clear Hn. revert e Hle.
  induction n as [| n IH]; intros e Hle l H Hp.
  - destruct e; [discriminate H | cbn in Hle; lia].
  - destruct e as [| r e1]; [discriminate H |]. cbn [wait_for_group_stop] in H. cbn [length] in Hle.
    destruct r as [| c | | | s | nm];
      try (inversion H; subst; apply Forall_inv in Hp; cbn in Hp; contradiction).
    + inversion H; subst. exists [], (Wait p). reflexivity.
    + destruct (wait_for_group_stop p e1) as [l1 x] eqn:E. inversion H; subst. inversion Hp; subst.
      apply (refused_app [_]). eapply IH; [| exact E | assumption]. lia.
    + destruct (negb (stopped s)).
      { destruct (wait_for_group_stop p e1) as [l1 x] eqn:E. inversion H; subst. inversion Hp; subst.
        apply (refused_app [_]). eapply IH; [| exact E | assumption]. lia. }
      destruct (event_of s =? EVENT_STOP); [discriminate H |].
      destruct e1 as [| r2 e2]; [discriminate H |]. cbn [length] in Hle.
      destruct (wait_for_group_stop p e2) as [l1 x] eqn:E.
      assert (G : forall y, x = Exit -> Forall proper (y ++ l1) -> refused (y ++ l1)).
      { intros y -> Hf. apply Forall_app in Hf. apply refused_app. eapply IH; [| exact E | apply Hf]. lia. }
      destruct r2; inversion H; subst; try (apply (G [_; _]); [reflexivity | exact Hp]).
      exists [(Wait p, Status s)], (Cont p (stopsig s)). reflexivity.
Qed.
Lemma add_exits max : forall names ps e l, add_tasks max ps names e = (l, Exit) ->
  l = [] /\ ~ exists ids, listed names ids /\ (ids = [] \/ (length (ps ++ ids) < max)%nat).
Proof.
  induction names as [| s names IH]; intros ps e l H; cbn [add_tasks] in H; [discriminate H |].
  destruct (task_name s) as [| | p] eqn:E.
  - destruct (IH _ _ _ H) as [-> G]. split; [reflexivity |]. intros (ids & Hi & Hl). apply G. exists ids.
    split; [eapply listed_skip; eassumption | exact Hl].
  - unfold exit1 in H. inversion H; subst. split; [reflexivity |]. intros (ids & Hi & _). eapply listed_bad; eassumption.
  - destruct (max <=? length ps)%nat eqn:E1; [discriminate H |].
    destruct (Nat.leb_spec max (length (ps ++ [p]))) as [Hm |].
    + unfold exit1 in H. inversion H; subst. split; [reflexivity |]. intros (ids & Hi & Hl).
      destruct (listed_tid _ _ _ _ E Hi) as (i & -> & _). destruct Hl as [Hl | Hl]; [discriminate Hl |].
      rewrite app_length in *. cbn in *. lia.
    + destruct (IH _ _ _ H) as [-> G]. split; [reflexivity |]. intros (ids & Hi & Hl).
      destruct (listed_tid _ _ _ _ E Hi) as (i & -> & Hi2). destruct Hl as [Hl | Hl]; [discriminate Hl |].
      apply G. exists i. split; [exact Hi2 |]. right. rewrite <- app_assoc. exact Hl.
Qed.
Theorem capture_exits max before pid e l :
  capture_all_threads max before pid e = (l, Exit) -> Forall proper l ->
  refused l
  \/ exists l0 names, l = l0 ++ [(OpenTasks pid, Names names)]
       /\ ~ exists ids, listed names ids /\ (ids = [] \/ (length (before ++ ids) < max)%nat).
Proof.
  set (W := fun l => refused l \/ exists l0 names, l = l0 ++ [(OpenTasks pid, Names names)]
       /\ ~ exists ids, listed names ids /\ (ids = [] \/ (length (before ++ ids) < max)%nat)).
  assert (HW : forall x y, W y -> W (x ++ y)).
  { intros x y [Hr | (l0 & n & -> & H)]; [left; apply refused_app, Hr | right; exists (x ++ l0), n; rewrite app_assoc; auto]. }
  assert (HR : forall A (m : prog A), exits m refused -> exits m W) by (intros A m; apply exits_weak; left; assumption).
  assert (G : exits (capture_all_threads max before pid) W).
  { unfold capture_all_threads.
    apply exits_bind with (V := fun _ _ => True); [apply HR, exits_must | auto |]. intros _ x1 _.
    eapply exits_weak; [apply HW |].
    apply exits_bind with (V := fun _ _ => True); [apply HR, exits_must | auto |]. intros _ x2 _.
    eapply exits_weak; [apply HW |].
    apply exits_bind with (V := fun _ _ => True); [apply HR, exits_wait | auto |]. intros _ x3 _.
    eapply exits_weak; [apply HW |].
    apply exits_bind with (V := fun r y => y = [(OpenTasks pid, r)] /\ Forall proper y).
    - apply exits_never. intros [|]; discriminate.
    - intros e0 y r e' H Hp. apply exact_sys in H. destruct H as [_ ->]. auto.
    - intros r y [-> Hp]. destruct r as [| q | | | s | names]; try (apply Forall_inv in Hp; cbn in Hp; contradiction).
      + intros e0 y H _. unfold exit1 in H. inversion H; subst. left. exists [], (OpenTasks pid). reflexivity.
      + apply exits_bind with (V := fun _ _ => True); [| auto |].
        { intros e0 y H _. destruct (add_exits _ _ _ _ _ H) as [-> Hn]. right. exists [], names. split; [reflexivity | exact Hn]. }
        intros ps' y _. eapply exits_weak with (W := fun z => W z); [intros z Hz; apply HW, HW, Hz |].
        apply HR. apply exits_bind with (V := fun _ _ => True); [apply exits_for_all; intros p; destruct (p =? pid); [apply exits_never; discriminate | apply exits_must] | auto |].
        intros _ y1 _. eapply exits_weak; [apply refused_app |].
        apply exits_bind with (V := fun _ _ => True); [apply exits_for_all; intros p; destruct (p =? pid); [apply exits_never; discriminate | apply exits_wait] | auto |].
        intros _ y2 _. eapply exits_weak; [apply refused_app |].
        apply exits_bind with (V := fun _ _ => True); [apply exits_for_all; intros p; apply exits_must | auto |].
        intros _ y3 _. eapply exits_weak; [apply refused_app |].
        apply exits_bind with (V := fun _ _ => True); [apply exits_must | auto |].
        intros _ y4 _. apply exits_never. discriminate. }
  apply G.
Qed.

(** A child is never left behind. *)
Definition killed (c : N) (l : list event) : Prop := exists l0 r, l = l0 ++ [(Kill c 9, r)].
Lemma killed_app c l l' : killed c l' -> killed c (l ++ l').
Proof. intros (l0 & r & ->). exists (l ++ l0), r. rewrite app_assoc. reflexivity. Qed.
Lemma exits_err A c : exits (@err_parent A c) (killed c).
Proof.
  intros e l H _. unfold err_parent, bind, sys, exit1 in H. destruct e as [| r e]; [discriminate H |].
  inversion H; subst. exists [], r. reflexivity.
Qed.
Lemma exits_wait_child c : exits (wait_child c) (killed c).
Proof.
  intros e. induction e as [| r e IH]; intros l H Hp; [discriminate H |]. cbn [wait_child] in H.
  assert (G : forall l0, err_parent (A := N) c e = (l0, Exit) -> l = (Wait c, r) :: l0 -> killed c l).
  { intros l0 E0 ->. apply (killed_app c [_]). eapply exits_err; [exact E0 |]. inversion Hp; assumption. }
  destruct r as [| q | | | s | nm];
    try (destruct (err_parent c e) as [l0 x]; inversion H; subst; eapply G; reflexivity).
  - destruct (wait_child c e) as [l0 x]. inversion H; subst. apply (killed_app c [_]). apply IH; [reflexivity | inversion Hp; assumption].
Qed.
Theorem exec_exits max ps e l : do_exec max ps e = (l, Exit) -> Forall proper l ->
  l = [(Fork, Fail)] \/ exists c l0, l = (Fork, Child c) :: l0 /\ killed c l0.
Proof.
  set (W := fun l => l = [(Fork, Fail)] \/ exists c l0, l = (Fork, Child c) :: l0 /\ killed c l0).
  assert (G : exits (do_exec max ps) W).
  { unfold do_exec. apply exits_bind with (V := fun r y => y = [(Fork, r)] /\ Forall proper y).
    - apply exits_never. intros [|]; discriminate.
    - intros e0 y r e' H Hp. apply exact_sys in H. destruct H as [_ ->]. auto.
    - intros r y [-> Hp]. destruct r as [| c | | | s | names]; try (apply Forall_inv in Hp; cbn in Hp; contradiction).
      2: { intros e0 y H _. unfold exit1 in H. inversion H; subst. left. reflexivity. }
      eapply exits_weak with (W := killed c); [intros z Hz; right; exists c, z; split; [reflexivity | exact Hz] |].
      assert (KA : forall x y, killed c y -> killed c (x ++ y)) by (intros; apply killed_app; assumption).
      apply exits_bind with (V := fun _ _ => True); [apply exits_wait_child | auto |]. intros s1 x1 _.
      eapply exits_weak; [apply KA |]. destruct (_ || _)%bool; [apply exits_err |].
      apply exits_bind with (V := fun _ _ => True); [apply exits_never; intros [|]; discriminate | auto |]. intros r1 x2 _.
      eapply exits_weak; [apply KA |].
      assert (K : exits (do s <- wait_child c in
              if (negb (stopped s) || negb (stopsig s =? SIGSTOP)) || negb (event_of s =? EVENT_STOP) then err_parent c
              else do _ <- sys (Cont c 0) in do s <- wait_child c in
                if (negb (stopped s) || negb (stopsig s =? SIGTRAP)) || negb (event_of s =? EVENT_EXEC) then err_parent c
                else if (max <=? length ps)%nat then oob else ret (ps ++ [c], c)) (killed c)).
      { apply exits_bind with (V := fun _ _ => True); [apply exits_wait_child | auto |]. intros s2 x3 _.
        eapply exits_weak; [apply KA |]. destruct (_ || _)%bool; [apply exits_err |].
        apply exits_bind with (V := fun _ _ => True); [apply exits_never; intros [|]; discriminate | auto |]. intros r2 x4 _.
        eapply exits_weak; [apply KA |].
        apply exits_bind with (V := fun _ _ => True); [apply exits_wait_child | auto |]. intros s3 x5 _.
        eapply exits_weak; [apply KA |]. destruct (_ || _)%bool; [apply exits_err |].
        apply exits_never. intros e0. destruct (max <=? length ps)%nat; discriminate. }
      destruct r1; try exact K. apply exits_err. }
  apply G.
Qed.

(** ** The threads that are not traced *)
Lemma exact_release ps p : exact (release_all_non_tracing_threads ps p)
  (fun _ l => List.map fst l = List.map (fun q => Cont q 0) (others p ps)).
Proof.
  unfold release_all_non_tracing_threads.
  eapply exact_ext; cycle 1.
  { apply exact_others with (f := fun q => do _ <- sys (Cont q 0) in ret tt) (P := fun q l => exists r, l = [(Cont q 0, r)]).
    intros q. eapply exact_ext; cycle 1.
    { apply exact_bind; [apply exact_sys | intros r]. apply exact_ret. }
    intros [] l; split.
    - intros (r & l1 & l2 & -> & -> & _ & ->). exists r. reflexivity.
    - intros (r & ->). exists r, [(Cont q 0, r)], []. auto. }
  intros [] l; split.
  - intros (ls & -> & H). induction H as [| q l qs ls (r & ->) _ IH]; [reflexivity |]. cbn. f_equal. exact IH.
  - generalize (others p ps). intros qs. revert l. induction qs as [| q qs IH]; cbn; intros l H.
    + destruct l; [| discriminate H]. exists []. split; constructor.
    + destruct l as [| [c r] l]; [discriminate H |]. cbn in H. inversion H; subst.
      destruct (IH l H2) as (ls & -> & Hl). exists ([(Cont q 0, r)] :: ls). split; [reflexivity | constructor; eauto].
Qed.
Theorem release_ok ps p e l e' : release_all_non_tracing_threads ps p e = (l, Ret tt e') <->
  e = List.map snd l ++ e' /\ List.map fst l = List.map (fun q => Cont q 0) (others p ps).
Proof. apply (exact_release ps p e l tt e'). Qed.
