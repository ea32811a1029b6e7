Require Import Arith NArith List Bool Lia ZifyBool ZifyN ZifyNat.
From Verif Require Import Capture_Model Capture_Spec.
Import ListNotations.
Local Open Scope N_scope.

(** ** A calculus of exact logs *)
Definition exact {A} (m : prog A) (P : A -> list event -> Prop) : Prop :=
  forall e l a e', m e = (l, Ret a e') <-> e = List.map snd l ++ e' /\ P a l.

Lemma exact_ret A (a : A) : exact (ret a) (fun b l => b = a /\ l = []).
Proof.
  intros e l b e'. unfold ret. split.
  - intros H. inversion H; subst. repeat split; reflexivity.
  - intros [-> [-> ->]]. reflexivity.
Qed.
Lemma exact_exit A (P : A -> list event -> Prop) : (forall a l, ~ P a l) -> exact exit1 P.
Proof. intros HP e l b e'. unfold exit1. split; [intros H; discriminate H | intros [_ H]; elim (HP _ _ H)]. Qed.
Lemma exact_oob A (P : A -> list event -> Prop) : (forall a l, ~ P a l) -> exact oob P.
Proof. intros HP e l b e'. unfold oob. split; [intros H; discriminate H | intros [_ H]; elim (HP _ _ H)]. Qed.
Lemma exact_sys c : exact (sys c) (fun r l => l = [(c, r)]).
Proof.
  intros e l r e'. unfold sys. split.
  - destruct e as [| r0 e0]; intros H; inversion H; subst. split; reflexivity.
  - intros [-> ->]. reflexivity.
Qed.
Lemma exact_bind A B (m : prog A) (f : A -> prog B) P Q :
  exact m P -> (forall a, exact (f a) (Q a)) ->
  exact (bind m f) (fun b l => exists a l1 l2, l = l1 ++ l2 /\ P a l1 /\ Q a b l2).
Proof.
  intros Hm Hf e l b e'. unfold bind. split.
  - intros H. destruct (m e) as [l1 [a e1 | | |]] eqn:E; try discriminate H.
    destruct (f a e1) as [l2 r] eqn:E2. inversion H; subst.
    apply Hm in E. destruct E as [-> HP]. apply Hf in E2. destruct E2 as [-> HQ].
    split; [rewrite map_app, app_assoc; reflexivity | eauto 8].
  - intros [-> (a & l1 & l2 & -> & HP & HQ)].
    rewrite map_app, <- app_assoc.
    assert (E : m (List.map snd l1 ++ List.map snd l2 ++ e') = (l1, Ret a (List.map snd l2 ++ e'))) by (apply Hm; split; auto).
    unfold event in *; rewrite E.
    assert (E2 : f a (List.map snd l2 ++ e') = (l2, Ret b e')) by (apply Hf; split; auto).
    unfold event in *; rewrite E2. reflexivity.
Qed.
Lemma exact_ext A (m : prog A) (P Q : A -> list event -> Prop) :
  (forall a l, P a l <-> Q a l) -> exact m P -> exact m Q.
Proof. intros H Hm e l a e'. rewrite (Hm e l a e'), (H a l). reflexivity. Qed.
Lemma exact_must c : exact (must c) (fun _ l => exists r, l = [(c, r)] /\ r <> Fail).
Proof.
  unfold must.
  apply exact_ext with
    (P := fun (b : unit) l => exists r l1 l2, l = l1 ++ l2 /\ l1 = [(c, r)] /\ (r <> Fail /\ l2 = [])).
  - intros a l; split.
    + intros (r & l1 & l2 & -> & -> & Hr & ->). exists r. split; [reflexivity | exact Hr].
    + intros (r & -> & Hr). exists r, [(c, r)], []. repeat split; auto.
  - apply exact_bind with (P := fun r l => l = [(c, r)]) (Q := fun r _ l => r <> Fail /\ l = []); [apply exact_sys |].
    intros r. destruct r; try (apply exact_ext with (P := fun (b : unit) l => b = tt /\ l = []); [| apply exact_ret];
      intros [] x; split; [intros [_ ->]; split; [discriminate | reflexivity] | intros [_ ->]; split; reflexivity]).
    apply exact_exit. intros a l [H _]. elim H; reflexivity.
Qed.

(** ** Statuses *)
Lemma stopped_spec s : stopped s = true <-> s mod 256 = 127.
Proof. unfold stopped. change 0xff with (N.ones 8). rewrite N.land_ones, N.eqb_eq. reflexivity. Qed.
Lemma stopsig_spec s : stopsig s = s / 256 mod 256.
Proof.
  unfold stopsig. rewrite N.shiftr_land, N.shiftr_div_pow2. change (N.shiftr 0xff00 8) with (N.ones 8).
  rewrite N.land_ones. reflexivity.
Qed.
Lemma event_spec s : event_of s = s / 65536.
Proof. unfold event_of. rewrite N.shiftr_div_pow2. reflexivity. Qed.

(** ** Waiting *)
Lemma awaited_ne p l : awaited p l -> l <> [].
Proof. intros []; discriminate. Qed.
Lemma wait_sound p : forall n e l u e', (length e <= n)%nat -> wait_for_group_stop p e = (l, Ret u e') ->
  e = List.map snd l ++ e' /\ awaited p l.
Proof.
  induction n as [| n IH]; intros e l u e' Hn H.
  - destruct e; [discriminate H | cbn in Hn; lia].
  - destruct e as [| r e1]; [discriminate H |]. cbn [length] in Hn. cbn [wait_for_group_stop] in H.
    destruct r; try discriminate H.
    + destruct (wait_for_group_stop p e1) as [l1 x] eqn:E. inversion H; subst.
      apply IH in E; [| lia]. destruct E as [-> Ha]. split; [reflexivity | constructor; exact Ha].
    + destruct (stopped s) eqn:Es; cbn [negb] in H.
      * apply stopped_spec in Es.
        destruct (N.eqb_spec (event_of s) EVENT_STOP) as [Ee | Ee]; rewrite event_spec in Ee; unfold EVENT_STOP in Ee.
        { inversion H; subst. split; [reflexivity | constructor; assumption]. }
        destruct e1 as [| r2 e2]; [discriminate H |]. cbn [length] in Hn.
        destruct (wait_for_group_stop p e2) as [l1 x] eqn:E.
        assert (Hr : r2 <> Fail /\ l = (Wait p, Status s) :: (Cont p (stopsig s), r2) :: l1 /\ x = Ret u e').
        { destruct r2; try discriminate H; inversion H; subst; repeat split; auto; discriminate. }
        destruct Hr as (Hr & -> & ->). apply IH in E; [| lia]. destruct E as [-> Ha].
        split; [reflexivity |]. rewrite stopsig_spec. constructor; assumption.
      * assert (Es' : s mod 256 <> 127) by (intros C; apply stopped_spec in C; congruence).
        destruct (wait_for_group_stop p e1) as [l1 x] eqn:E. inversion H; subst.
        apply IH in E; [| lia]. destruct E as [-> Ha]. split; [reflexivity | constructor; assumption].
Qed.
Lemma wait_complete p l e' : awaited p l -> wait_for_group_stop p (List.map snd l ++ e') = (l, Ret tt e').
Proof.
  induction 1 as [s H1 H2 | l Hl IH | s l H1 Hl IH | s r l H1 H2 Hr Hl IH]; cbn [List.map snd app wait_for_group_stop].
  - apply stopped_spec in H1. rewrite H1. cbn [negb]. rewrite event_spec, H2. reflexivity.
  - rewrite IH. reflexivity.
  - replace (stopped s) with false by (symmetry; apply not_true_iff_false; rewrite stopped_spec; exact H1).
    cbn [negb]. rewrite IH. reflexivity.
  - apply stopped_spec in H1. rewrite H1. cbn [negb]. rewrite event_spec.
    destruct (N.eqb_spec (s / 65536) EVENT_STOP) as [C | C]; [elim H2; exact C |].
    rewrite IH, stopsig_spec. destruct r; try reflexivity. elim Hr; reflexivity.
Qed.
Lemma exact_wait p : exact (wait_for_group_stop p) (fun _ l => awaited p l).
Proof.
  intros e l [] e'. split.
  - intros H. eapply wait_sound; [apply le_n | exact H].
  - intros [-> H]. apply wait_complete, H.
Qed.

(** ** Loops *)
Lemma exact_for_all f (P : N -> list event -> Prop) : (forall p, exact (f p) (fun _ l => P p l)) ->
  forall ps, exact (for_all f ps) (fun _ l => exists ls, l = concat ls /\ Forall2 P ps ls).
Proof.
  intros Hf. induction ps as [| p ps IH]; cbn [for_all].
  - apply exact_ext with (P := fun (b : unit) l => b = tt /\ l = []); [| apply exact_ret].
    intros [] l; split.
    + intros [_ ->]. exists []. split; constructor.
    + intros (ls & -> & H). inversion H; subst. split; reflexivity.
  - apply exact_ext with (P := fun (b : unit) l => exists (a : unit) l1 l2, l = l1 ++ l2 /\ P p l1 /\
      exists ls, l2 = concat ls /\ Forall2 P ps ls).
    + intros [] l; split.
      * intros (_ & l1 & l2 & -> & H1 & ls & -> & H2). exists (l1 :: ls). split; [reflexivity | constructor; assumption].
      * intros (ls & -> & H). inversion H; subst. cbn [concat]. exists tt; eauto 10.
    + apply exact_bind with (P := fun _ l => P p l) (Q := fun _ _ l2 => exists ls, l2 = concat ls /\ Forall2 P ps ls);
        [apply Hf | intros _; exact IH].
Qed.
(** The loops that pass over one thread *)
Lemma forall2_others pid (P : N -> list event -> Prop) ps ls :
  Forall2 (fun p l => if p =? pid then l = [] else P p l) ps ls ->
  exists ls', concat ls = concat ls' /\ Forall2 P (others pid ps) ls'.
Proof.
  unfold others. induction 1 as [| p l ps ls H _ (ls' & E & IH)]; cbn [filter concat].
  - exists []. split; constructor.
  - destruct (p =? pid); cbn [negb].
    + subst l. exists ls'. split; assumption.
    + exists (l :: ls'). split; [cbn [concat]; rewrite E; reflexivity | constructor; assumption].
Qed.
Lemma others_forall2 pid (P : N -> list event -> Prop) ps : forall ls',
  Forall2 P (others pid ps) ls' ->
  exists ls, concat ls = concat ls' /\ Forall2 (fun p l => if p =? pid then l = [] else P p l) ps ls.
Proof.
  unfold others. induction ps as [| p ps IH]; cbn [filter]; intros ls' H.
  - exists []. inversion H; subst. split; constructor.
  - destruct (p =? pid) eqn:E; cbn [negb] in H.
    + destruct (IH _ H) as (ls & E1 & H1). exists ([] :: ls). split; [exact E1 | constructor; [rewrite E; reflexivity | exact H1]].
    + inversion H as [| x y l1 l2 Hp Ht]; subst. destruct (IH _ Ht) as (ls & E1 & H1).
      exists (y :: ls). split; [cbn [concat]; rewrite E1; reflexivity | constructor; [rewrite E; exact Hp | exact H1]].
Qed.
Lemma exact_others f (P : N -> list event -> Prop) pid : (forall p, exact (f p) (fun _ l => P p l)) ->
  forall ps, exact (for_all (fun p => if p =? pid then ret tt else f p) ps)
                   (fun _ l => exists ls, l = concat ls /\ Forall2 P (others pid ps) ls).
Proof.
  intros Hf ps.
  apply exact_ext with (P := fun (_ : unit) l => exists ls, l = concat ls /\
    Forall2 (fun p l => if p =? pid then l = [] else P p l) ps ls).
  - intros _ l; split.
    + intros (ls & -> & H). apply forall2_others in H. exact H.
    + intros (ls & -> & H). apply others_forall2 in H. destruct H as (ls' & E & H). exists ls'. auto.
  - apply exact_for_all with (P := fun p l => if p =? pid then l = [] else P p l).
    intros p. destruct (p =? pid); [| apply Hf].
    apply exact_ext with (P := fun (b : unit) l => b = tt /\ l = []); [| apply exact_ret].
    intros [] l; split; [intros [_ H]; exact H | intros H; split; auto].
Qed.
(** Loops of single calls *)
Lemma single_calls (g : N -> call) ps l :
  (exists ls, l = concat ls /\ Forall2 (fun p l => exists r, l = [(g p, r)] /\ r <> Fail) ps ls)
  <-> succeeded (List.map g ps) l.
Proof.
  unfold succeeded. split.
  - intros (ls & -> & H). induction H as [| p l ps ls (r & -> & Hr) _ [IH1 IH2]]; cbn; [split; constructor |].
    split; [rewrite IH1; reflexivity | constructor; [exact Hr | exact IH2]].
  - revert l. induction ps as [| p ps IH]; cbn; intros l [H1 H2].
    + destruct l; [| discriminate H1]. exists []. split; constructor.
    + destruct l as [| [c r] l]; [discriminate H1 |]. cbn in H1. inversion H1; subst.
      inversion H2; subst. destruct (IH l) as (ls & -> & H); [split; auto |].
      exists ([(g p, r)] :: ls). split; [reflexivity | constructor; [| exact H]]. exists r. auto.
Qed.

(** ** Names *)
Lemma isdigit_spec c : isdigit c = true <-> digit c.
Proof. unfold isdigit, digit. lia. Qed.
Lemma isdigit_false c : isdigit c = false <-> ~ digit c.
Proof. unfold isdigit, digit. lia. Qed.
Lemma strtoul_all : forall s acc, Forall digit s ->
  strtoul acc s = (fold_left (fun v c => 10 * v + (c - 48)) s acc, []).
Proof.
  induction s as [| c s IH]; intros acc H; [reflexivity |].
  inversion H; subst. cbn [strtoul fold_left]. apply isdigit_spec in H2. rewrite H2, IH by assumption.
  f_equal. f_equal. lia.
Qed.
Lemma strtoul_rest : forall s acc v, strtoul acc s = (v, []) -> Forall digit s.
Proof.
  induction s as [| c s IH]; intros acc v H; [constructor |].
  cbn [strtoul] in H. destruct (isdigit c) eqn:E; [| discriminate H].
  constructor; [apply isdigit_spec, E | eapply IH, H].
Qed.
Lemma task_name_tid s v : task_name s = Tid v <-> s <> [] /\ Forall digit s /\ decimal s < 2 ^ 64 /\ v = decimal s.
Proof.
  unfold task_name, decimal. split.
  - destruct s as [| c s]; [discriminate |]. destruct (isdigit c) eqn:E; cbn [negb]; [| discriminate].
    destruct (strtoul 0 (c :: s)) as [x rest] eqn:Es. destruct (N.ltb_spec ULONG_MAX x) as [|Hx]; [discriminate |].
    destruct rest; [| discriminate]. intros H; inversion H; subst.
    pose proof (strtoul_rest _ _ _ Es) as Hd. rewrite strtoul_all in Es by exact Hd. apply (f_equal fst) in Es; unfold fst in Es; rewrite Es.
    repeat split; auto; [discriminate | unfold ULONG_MAX in Hx; change (2 ^ 64) with 18446744073709551616; lia].
  - intros (H1 & H2 & H3 & ->). destruct s as [| c s]; [elim H1; reflexivity |].
    pose proof (Forall_inv H2) as Hc. apply isdigit_spec in Hc. rewrite Hc. cbn [negb].
    rewrite strtoul_all by exact H2. destruct (N.ltb_spec ULONG_MAX (fold_left (fun v c => 10 * v + (c - 48)) (c :: s) 0)) as [C |]; [| reflexivity].
    unfold ULONG_MAX in C. lia.
Qed.
Lemma task_name_skip s : task_name s = Skip <-> forall c s', s = c :: s' -> ~ digit c.
Proof.
  unfold task_name. destruct s as [| c s]; [split; [discriminate | reflexivity] |].
  destruct (isdigit c) eqn:E; cbn [negb].
  - split; [destruct (strtoul 0 (c :: s)) as [x rest]; destruct (ULONG_MAX <? x), rest; discriminate |].
    intros H. elim (H c s eq_refl). apply isdigit_spec, E.
  - split; [| reflexivity]. intros _ c' s' Hc. inversion Hc; subst. apply isdigit_false, E.
Qed.
Lemma listed_tid s names ids' v : task_name s = Tid v -> listed (s :: names) ids' -> exists ids, ids' = v :: ids /\ listed names ids.
Proof.
  intros E H. inversion H as [| s0 n0 i0 Hs Hl | s0 n0 i0 H1 H2 H3 Hl]; subst.
  - apply task_name_skip in Hs. congruence.
  - apply task_name_tid in E. destruct E as (_ & _ & _ & ->). eauto.
Qed.
Lemma listed_skip s names ids : task_name s = Skip -> listed (s :: names) ids -> listed names ids.
Proof.
  intros E H. inversion H as [| s0 n0 i0 Hs Hl | s0 n0 i0 H1 H2 H3 Hl]; subst; [exact Hl |].
  assert (task_name s = Tid (decimal s)) by (apply task_name_tid; auto). congruence.
Qed.
Lemma listed_bad s names ids : task_name s = Bad -> ~ listed (s :: names) ids.
Proof.
  intros E H. inversion H as [| s0 n0 i0 Hs Hl | s0 n0 i0 H1 H2 H3 Hl]; subst.
  - apply task_name_skip in Hs. congruence.
  - assert (task_name s = Tid (decimal s)) by (apply task_name_tid; auto). congruence.
Qed.
Lemma exact_add max : forall names ps,
  exact (add_tasks max ps names) (fun ps' l => l = [] /\ exists ids, listed names ids /\ ps' = ps ++ ids /\ (ids = [] \/ (length ps' < max)%nat)).
Proof.
  induction names as [| s names IH]; intros ps; cbn [add_tasks].
  - apply exact_ext with (P := fun b l => b = ps /\ l = []); [| apply exact_ret].
    intros a l; split.
    + intros [-> ->]. split; [reflexivity |]. exists []. rewrite app_nil_r. repeat split; [constructor | left; reflexivity].
    + intros (-> & ids & H & -> & _). inversion H; subst. rewrite app_nil_r. split; reflexivity.
  - destruct (task_name s) as [| | p] eqn:E.
    + eapply exact_ext; [| apply IH]. intros a l; split.
      * intros (-> & ids & H & Hp). split; [reflexivity |]. exists ids. split; [| exact Hp].
        apply li_skip; [| exact H]. apply task_name_skip, E.
      * intros (-> & ids & H & Hp). split; [reflexivity |]. exists ids. split; [| exact Hp].
        eapply listed_skip; eassumption.
    + apply exact_exit. intros a l (_ & ids & H & _). eapply listed_bad; eassumption.
    + destruct (Nat.leb_spec max (length ps)) as [Hm | Hm].
      { apply exact_oob. intros a l (_ & ids & H & -> & Hl). destruct (listed_tid _ _ _ _ E H) as (i & -> & _).
        destruct Hl as [Hl | Hl]; [discriminate Hl |]. rewrite app_length in Hl. lia. }
      destruct (Nat.leb_spec max (length (ps ++ [p]))) as [Hm1 | Hm1].
      { apply exact_exit. intros a l (_ & ids & H & -> & Hl). destruct (listed_tid _ _ _ _ E H) as (i & -> & _).
        destruct Hl as [Hl | Hl]; [discriminate Hl |]. rewrite app_length in *. cbn in *. lia. }
      eapply exact_ext; [| apply IH]. intros a l; split.
      * intros (-> & ids & H & -> & Hl). split; [reflexivity |]. exists (p :: ids). rewrite <- app_assoc.
        repeat split.
        -- apply task_name_tid in E. destruct E as (E1 & E2 & E3 & ->). apply li_tid; assumption.
        -- right. rewrite app_length in *. cbn in *. destruct Hl as [-> | Hl]; [cbn | rewrite app_length in Hl; cbn in Hl]; lia.
      * intros (-> & ids & H & -> & Hl). destruct (listed_tid _ _ _ _ E H) as (i & -> & Hi).
        split; [reflexivity |]. exists i. rewrite <- app_assoc. repeat split; [exact Hi |].
        destruct Hl as [Hl | Hl]; [discriminate Hl | right; exact Hl].
Qed.

(** ** The whole *)
Lemma exact_interrupts ps : exact (for_all (fun p => must (Interrupt p)) ps) (fun _ l => succeeded (List.map Interrupt ps) l).
Proof.
  eapply exact_ext; [| apply exact_for_all; intros p; apply exact_must].
  intros a l. apply (single_calls Interrupt).
Qed.
Lemma exact_seizes pid ps : exact (for_all (fun p => if p =? pid then ret tt else must (Seize p)) ps)
  (fun _ l => succeeded (List.map Seize (others pid ps)) l).
Proof.
  eapply exact_ext; [| apply exact_others with (f := fun p => must (Seize p)); intros p; apply exact_must].
  intros a l. apply (single_calls Seize).
Qed.
Lemma exact_capture max ps pid : exact (capture_all_threads max ps pid) (fun ps' l => captured max ps pid ps' l).
Proof.
  unfold capture_all_threads. eapply exact_ext; cycle 1.
  { apply exact_bind; [apply exact_must | intros ?].
    apply exact_bind; [apply exact_must | intros ?].
    apply exact_bind; [apply exact_wait | intros ?].
    apply exact_bind; [apply exact_sys | intros r].
    instantiate (1 := fun r ps' l => exists names, r = Names names /\
      exists ids seizes waits interrupts r3, listed names ids /\ ps' = ps ++ ids /\ (ids = [] \/ (length ps' < max)%nat) /\
       succeeded (List.map Seize (others pid ps')) seizes /\ Forall2 awaited (others pid ps') waits /\
       succeeded (List.map Interrupt ps') interrupts /\ r3 <> Fail /\
       l = seizes ++ concat waits ++ interrupts ++ [(Kill pid 18, r3)]).
    destruct r; try (apply exact_exit; intros ? ? (n & H & _); discriminate H).
    eapply exact_ext; cycle 1.
    { apply exact_bind; [apply exact_add | intros ps2].
      apply exact_bind; [apply exact_seizes | intros ?].
      apply exact_bind; [apply exact_others with (f := wait_for_group_stop); intros p; apply exact_wait | intros ?].
      apply exact_bind; [apply exact_interrupts | intros ?].
      apply exact_bind; [apply exact_must | intros ?]. apply exact_ret. }
    intros v x; split.
    - intros (p2 & l1 & l2 & -> & (-> & ids & Hi & -> & Hlen) & ? & sz & l3 & -> & Hs & ? & wt & l4 & -> & (ws & -> & Hw)
              & ? & it & l5 & -> & Hit & ? & lk & ln & -> & (r3 & -> & Hr3) & -> & ->).
      exists l. split; [reflexivity |]. exists ids, sz, ws, it, r3. repeat split; auto; apply Hs || apply Hit.
    - intros (n & Hn & ids & sz & ws & it & r3 & Hi & -> & Hlen & Hs & Hw & Hit & Hr3 & ->). inversion Hn; subst n.
      exists (ps ++ ids), [], (sz ++ concat ws ++ it ++ [(Kill pid 18, r3)]). split; [reflexivity |].
      split; [split; [reflexivity | exists ids; auto] |].
      exists tt, sz, (concat ws ++ it ++ [(Kill pid 18, r3)]). split; [reflexivity |]. split; [exact Hs |].
      exists tt, (concat ws), (it ++ [(Kill pid 18, r3)]). split; [reflexivity |]. split; [eauto |].
      exists tt, it, [(Kill pid 18, r3)]. split; [reflexivity |]. split; [exact Hit |].
      exists tt, [(Kill pid 18, r3)], []. split; [reflexivity |]. split; [eauto | auto]. }
  intros v x; unfold captured; split.
  - intros (? & l1 & l2 & -> & (r1 & -> & H1) & ? & l3 & l4 & -> & (r2 & -> & H2) & ? & w & l5 & -> & Hw
            & r & l6 & l7 & -> & -> & names & -> & ids & sz & ws & it & r3 & Hi & Ha & Hlen & Hs & Hws & Hit & H3 & ->).
    exists r1, r2, w, names, ids, sz, ws, it, r3. repeat split; auto; apply Hs || apply Hit.
  - intros (r1 & r2 & w & names & ids & sz & ws & it & r3 & -> & H1 & H2 & H3 & Hw & Hi & Ha & Hlen & Hs & Hws & Hit).
    exists tt, [(Seize pid, r1)]. eexists. split; [reflexivity |]. split; [eauto |].
    exists tt, [(Kill pid 19, r2)]. eexists. split; [reflexivity |]. split; [eauto |].
    exists tt, w. eexists. split; [reflexivity |]. split; [exact Hw |].
    exists (Names names), [(OpenTasks pid, Names names)]. eexists. split; [reflexivity |]. split; [reflexivity |].
    exists names. split; [reflexivity |]. exists ids, sz, ws, it, r3. auto 12.
Qed.
Theorem capture_ok max ps pid e l ps' e' :
  capture_all_threads max ps pid e = (l, Ret ps' e') <-> e = List.map snd l ++ e' /\ captured max ps pid ps' l.
Proof. apply exact_capture. Qed.

(** ** Starting a program *)
Lemma exact_wait_child c : exact (wait_child c) (fun s l => reported c s l).
Proof.
  intros e l s e'. split.
  - revert l. induction e as [| r e IH]; intros l H; [discriminate H |]. cbn [wait_child] in H.
    destruct r; try (unfold err_parent, bind, sys, exit1 in H; destruct e; discriminate H).
    + destruct (wait_child c e) as [l1 x] eqn:E. inversion H; subst. destruct (IH _ eq_refl) as [-> Hr].
      split; [reflexivity | constructor; exact Hr].
    + inversion H; subst. split; [reflexivity | constructor].
  - intros [-> H]. induction H as [s | s l H IH]; cbn [List.map snd app wait_child]; [reflexivity |]. rewrite IH. reflexivity.
Qed.
Lemma exact_err A c (P : A -> list event -> Prop) : (forall a l, ~ P a l) -> exact (err_parent c) P.
Proof.
  intros HP e l a e'. split; [| intros [_ H]; elim (HP _ _ H)].
  intros H. unfold err_parent, bind, sys, exit1 in H. destruct e; discriminate H.
Qed.
Lemma status1 s : (negb (stopped s) || negb (stopsig s =? SIGSTOP))%bool = false <-> s mod 65536 = 19 * 256 + 127.
Proof.
  rewrite orb_false_iff, !negb_false_iff, stopped_spec, stopsig_spec, N.eqb_eq. unfold SIGSTOP.
  replace (s mod 65536) with (s mod 256 + 256 * (s / 256 mod 256)).
  - pose proof (N.mod_lt s 256). pose proof (N.mod_lt (s / 256) 256). lia.
  - change 65536 with (256 * 256). symmetry. apply N.mod_mul_r; lia.
Qed.
Lemma status_sig s sig ev : sig < 256 ->
  ((negb (stopped s) || negb (stopsig s =? sig)) || negb (event_of s =? ev))%bool = false <-> s = ev * 65536 + sig * 256 + 127.
Proof.
  intros Hsig. rewrite !orb_false_iff, !negb_false_iff, stopped_spec, stopsig_spec, event_spec, !N.eqb_eq.
  pose proof (N.div_mod s 256). pose proof (N.div_mod (s / 256) 256). rewrite N.div_div in * by lia. change (256 * 256) with 65536 in *.
  pose proof (N.mod_lt s 256). pose proof (N.mod_lt (s / 256) 256).
  split; [lia |]. intros ->.
  assert (E1 : (ev * 65536 + sig * 256 + 127) / 256 = ev * 256 + sig) by (symmetry; apply N.div_unique with 127; lia).
  assert (E2 : (ev * 65536 + sig * 256 + 127) mod 256 = 127) by (symmetry; apply N.mod_unique with (ev * 256 + sig); lia).
  rewrite E1, E2.
  assert (E3 : (ev * 256 + sig) mod 256 = sig) by (symmetry; apply N.mod_unique with ev; lia).
  assert (E4 : (ev * 65536 + sig * 256 + 127) / 65536 = ev) by (symmetry; apply N.div_unique with (sig * 256 + 127); lia).
  rewrite E3, E4. auto.
Qed.
Lemma exact_exec max ps : (length ps < max)%nat ->
  exact (do_exec max ps) (fun x l => fst x = ps ++ [snd x] /\ started (snd x) l).
Proof.
  intros Hmax. unfold do_exec. eapply exact_ext; cycle 1.
  { apply exact_bind; [apply exact_sys | intros r].
    instantiate (1 := fun r x l => exists c, r = Child c /\ x = (ps ++ [c], c) /\ exists w1 r1 w2 r2 w3 s1 s2 s3,
       l = w1 ++ [(Seize c, r1)] ++ w2 ++ [(Cont c 0, r2)] ++ w3 /\ r1 <> Fail
       /\ reported c s1 w1 /\ s1 mod 65536 = 19 * 256 + 127
       /\ reported c s2 w2 /\ s2 = 128 * 65536 + 19 * 256 + 127
       /\ reported c s3 w3 /\ s3 = 4 * 65536 + 5 * 256 + 127).
    destruct r as [| c | | | |]; try (apply exact_exit; intros ? ? (n & H & _); discriminate H).
    eapply exact_ext; cycle 1.
    { apply exact_bind; [apply exact_wait_child | intros s1].
      instantiate (1 := fun s1 x l => s1 mod 65536 = 19 * 256 + 127 /\ x = (ps ++ [c], c) /\ exists r1 w2 r2 w3 s2 s3,
         l = [(Seize c, r1)] ++ w2 ++ [(Cont c 0, r2)] ++ w3 /\ r1 <> Fail
         /\ reported c s2 w2 /\ s2 = 128 * 65536 + 19 * 256 + 127
         /\ reported c s3 w3 /\ s3 = 4 * 65536 + 5 * 256 + 127).
      destruct (negb (stopped s1) || negb (stopsig s1 =? SIGSTOP))%bool eqn:E1.
      { apply exact_err. intros a l [H _]. apply status1 in H. congruence. }
      apply status1 in E1. eapply exact_ext; cycle 1.
      { apply exact_bind; [apply exact_sys | intros r1].
        instantiate (1 := fun r1 x l => r1 <> Fail /\ x = (ps ++ [c], c) /\ exists w2 r2 w3 s2 s3,
           l = w2 ++ [(Cont c 0, r2)] ++ w3
           /\ reported c s2 w2 /\ s2 = 128 * 65536 + 19 * 256 + 127
           /\ reported c s3 w3 /\ s3 = 4 * 65536 + 5 * 256 + 127).
        assert (G : exact (do s <- wait_child c in
              if (negb (stopped s) || negb (stopsig s =? SIGSTOP)) || negb (event_of s =? EVENT_STOP) then err_parent c
              else do _ <- sys (Cont c 0) in do s <- wait_child c in
                if (negb (stopped s) || negb (stopsig s =? SIGTRAP)) || negb (event_of s =? EVENT_EXEC) then err_parent c
                else if (max <=? length ps)%nat then oob else ret (ps ++ [c], c))
           (fun x l => x = (ps ++ [c], c) /\ exists w2 r2 w3 s2 s3,
           l = w2 ++ [(Cont c 0, r2)] ++ w3
           /\ reported c s2 w2 /\ s2 = 128 * 65536 + 19 * 256 + 127
           /\ reported c s3 w3 /\ s3 = 4 * 65536 + 5 * 256 + 127)).
        { eapply exact_ext; cycle 1.
          { apply exact_bind; [apply exact_wait_child | intros s2].
            instantiate (1 := fun s2 x l => s2 = 128 * 65536 + 19 * 256 + 127 /\ x = (ps ++ [c], c) /\ exists r2 w3 s3,
              l = [(Cont c 0, r2)] ++ w3 /\ reported c s3 w3 /\ s3 = 4 * 65536 + 5 * 256 + 127).
            destruct ((negb (stopped s2) || negb (stopsig s2 =? SIGSTOP)) || negb (event_of s2 =? EVENT_STOP))%bool eqn:E2.
            { apply exact_err. intros a l [H _]. apply (status_sig s2 SIGSTOP EVENT_STOP) in H; [congruence | reflexivity]. }
            apply status_sig in E2; [| reflexivity]. eapply exact_ext; cycle 1.
            { apply exact_bind; [apply exact_sys | intros r2].
              apply exact_bind; [apply exact_wait_child | intros s3].
              instantiate (1 := fun s3 x l => s3 = 4 * 65536 + 5 * 256 + 127 /\ x = (ps ++ [c], c) /\ l = []).
              destruct ((negb (stopped s3) || negb (stopsig s3 =? SIGTRAP)) || negb (event_of s3 =? EVENT_EXEC))%bool eqn:E3.
              { apply exact_err. intros a l [H _]. apply (status_sig s3 SIGTRAP EVENT_EXEC) in H; [congruence | reflexivity]. }
              apply status_sig in E3; [| reflexivity].
              destruct (Nat.leb_spec max (length ps)) as [C |]; [lia |].
              eapply exact_ext; [| apply exact_ret]. intros a l. split; [intros [-> ->]; auto | intros (_ & -> & ->); auto]. }
            intros a l; split.
            - intros (r2 & l1 & l2 & -> & -> & s3 & l3 & l4 & -> & H3 & Hs & -> & ->).
              split; [exact E2 |]. split; [reflexivity |]. exists r2, l3, s3. rewrite app_nil_r. repeat split; auto.
            - intros (_ & -> & r2 & w3 & s3 & -> & H3 & Hs). exists r2, [(Cont c 0, r2)], w3. split; [reflexivity |].
              split; [reflexivity |]. exists s3, w3, []. rewrite app_nil_r. repeat split; auto. }
          intros a l; split.
          - intros (s2 & l1 & l2 & -> & H2 & Hs2 & -> & r2 & w3 & s3 & -> & H3 & Hs3).
            split; [reflexivity |]. exists l1, r2, w3, s2, s3. repeat split; auto.
          - intros (-> & w2 & r2 & w3 & s2 & s3 & -> & H2 & Hs2 & H3 & Hs3).
            exists s2, w2, ([(Cont c 0, r2)] ++ w3). split; [reflexivity |]. split; [exact H2 |]. split; [exact Hs2 |].
            split; [reflexivity |]. exists r2, w3, s3. repeat split; auto. }
        destruct r1; try (eapply exact_ext; [| exact G]; intros ? ?; split; [intros [H1 H2]; split; [discriminate | split; assumption]
                                                                 | intros (_ & H); exact H]).
        apply exact_err. intros a l [H _]. elim H; reflexivity. }
      intros a l; split.
      - intros (r1 & l1 & l2 & -> & -> & Hr & -> & w2 & r2 & w3 & s2 & s3 & -> & H2 & Hs2 & H3 & Hs3).
        split; [exact E1 |]. split; [reflexivity |]. exists r1, w2, r2, w3, s2, s3. repeat split; auto.
      - intros (_ & -> & r1 & w2 & r2 & w3 & s2 & s3 & -> & Hr & H2 & Hs2 & H3 & Hs3).
        exists r1, [(Seize c, r1)]. eexists. split; [reflexivity |]. split; [reflexivity |]. split; [exact Hr |].
        split; [reflexivity |]. exists w2, r2, w3, s2, s3. repeat split; auto. }
    intros a l; split.
    - intros (s1 & w1 & l2 & -> & H1 & Hs1 & -> & r1 & w2 & r2 & w3 & s2 & s3 & -> & Hr & H2 & Hs2 & H3 & Hs3).
      exists c. split; [reflexivity |]. split; [reflexivity |]. exists w1, r1, w2, r2, w3, s1, s2, s3. repeat split; auto.
    - intros (c' & Hc & -> & w1 & r1 & w2 & r2 & w3 & s1 & s2 & s3 & -> & Hr & H1 & Hs1 & H2 & Hs2 & H3 & Hs3). inversion Hc; subst c'.
      exists s1, w1. eexists. split; [reflexivity |]. split; [exact H1 |]. split; [exact Hs1 |]. split; [reflexivity |].
      exists r1, w2, r2, w3, s2, s3. repeat split; auto. }
  intros [q c] l; cbn [fst snd]; unfold started; split.
  - intros (r & l1 & l2 & -> & -> & c' & -> & Hx & w1 & r1 & w2 & r2 & w3 & s1 & s2 & s3 & -> & H). inversion Hx; subst.
    split; [reflexivity |]. exists w1, r1, w2, r2, w3, s1, s2, s3. split; [reflexivity | exact H].
  - intros (-> & w1 & r1 & w2 & r2 & w3 & s1 & s2 & s3 & -> & H).
    exists (Child c), [(Fork, Child c)]. eexists. split; [reflexivity |]. split; [reflexivity |].
    exists c. split; [reflexivity |]. split; [reflexivity |]. exists w1, r1, w2, r2, w3, s1, s2, s3. split; [reflexivity | exact H].
Qed.
Theorem exec_ok max ps : (length ps < max)%nat -> forall e l ps' c e',
  do_exec max ps e = (l, Ret (ps', c) e') <-> e = List.map snd l ++ e' /\ ps' = ps ++ [c] /\ started c l.
Proof. intros H e l ps' c e'. apply (exact_exec max ps H e l (ps', c) e'). Qed.
