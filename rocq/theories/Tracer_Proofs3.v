(** Proofs for C58: the main loop. *)
Require Import NArith ZArith List Bool Lia.
Require Import ZifyBool ZifyN ZifyNat.
Require Import Verif.Word Verif.Codec_Types Verif.Codec_Spec Verif.Writer_Model Verif.Reader_Model.
Require Import Verif.Storage_Spec Verif.Step_Model Verif.Step_Spec Verif.Step_Proofs Verif.Step_Proofs2 Verif.Step_Proofs3.
Require Import Verif.Pagemap_Spec Verif.Pids_Model Verif.Pids_Spec Verif.Pids_Proofs.
Require Import Verif.Convert_Spec Verif.Convert_Proofs Verif.Tracer_Model Verif.Tracer_Spec Verif.Tracer_Proofs Verif.Tracer_Proofs2.
Import ListNotations.
Local Open Scope N_scope.

Lemma spec_run_app : forall max os l os', fst (spec_run max l (os ++ os')) = fst (spec_run max (fst (spec_run max l os)) os').
Proof.
  induction os as [|o os IH]; intros l os'; [reflexivity|]. cbn [app spec_run].
  destruct (spec_op max l o) as [l1 r]. specialize (IH l1 os').
  destruct (spec_run max l1 (os ++ os')). destruct (spec_run max l1 os). exact IH.
Qed.
Lemma threads_snoc : forall max l p x, threads max l (p ++ [x]) = fst (spec_run max (threads max l p) (change x)).
Proof.
  intros max l p x. unfold threads. rewrite flat_map_app. cbn [flat_map]. rewrite app_nil_r. apply spec_run_app.
Qed.
Lemma saw_snoc : forall p x, flat_map saw (p ++ [x]) = flat_map saw p ++ map (seen_of (fst x)) (reports x).
Proof. intros p x. rewrite flat_map_app. cbn [flat_map]. rewrite app_nil_r. reflexivity. Qed.
Lemma resp_snoc : forall tp p x, flat_map (response tp) (p ++ [x]) = flat_map (response tp) p ++ response tp x.
Proof. intros tp p x. rewrite flat_map_app. cbn [flat_map]. rewrite app_nil_r. reflexivity. Qed.

Section LOOP.
  Variable be xl : bool.
  Variable max : nat.
  Variable tp : Z.
  Variable skip left : N.
  Variable l0 : list Z.
  Hypothesis LB : left < 2 ^ 64.
  Hypothesis L0 : (length l0 <= max)%nat.

  Definition big (p : list (event * kind)) (s : tstate) : Prop :=
    inv xl skip left (flat_map saw p) s /\ t_done s = Step tp 0 :: flat_map (response tp) p
    /\ holds max (t_pids s) (threads max l0 p) /\ (length (threads max l0 p) <= max)%nat.
  Definition gone_by (p : list (event * kind)) (s : tstate) : Prop :=
    inv xl skip left (flat_map saw p) s
    /\ t_done s = Step tp 0 :: flat_map (response tp) (removelast p) ++ farewell max l0 p
    /\ holds max (t_pids s) (threads max l0 p).

  Lemma inv_asks : forall l s r, inv xl skip left l s -> inv xl skip left l (asks s r).
  Proof. intros l s r H. eapply inv_same; [exact H|reflexivity..]. Qed.
  Lemma inv_pids : forall l s t, inv xl skip left l s -> inv xl skip left l (set_pids s t).
  Proof. intros l s r H. eapply inv_same; [exact H|reflexivity..]. Qed.

  (** The thread goes on. *)
  Lemma big_ask : forall p e k s, e_going e = true -> reports (e, k) = [] ->
    inv xl skip left (flat_map saw p) s -> t_done s = Step tp 0 :: flat_map (response tp) p ->
    holds max (t_pids s) (threads max l0 (p ++ [(e, k)])) -> (length (threads max l0 (p ++ [(e, k)])) <= max)%nat ->
    exists s', ask e s (response tp (e, k)) = TWaits s' /\ big (p ++ [(e, k)]) s'.
  Proof.
    intros p e k s G R I1 D H HL. unfold ask. rewrite G. exists (asks s (response tp (e, k))).
    split; [reflexivity|]. split; [|split; [|split; [exact H|exact HL]]].
    - rewrite saw_snoc. rewrite R. cbn [map fst]. rewrite app_nil_r. apply inv_asks, I1.
    - rewrite resp_snoc. cbn [asks t_done]. rewrite D. reflexivity.
  Qed.

  Lemma left_full : forall n, ((if unlimited left then left else left - (n - skip)) =? 0) = full skip left n.
  Proof.
    intros n. unfold full. destruct (unlimited left) eqn:U; cbn [negb andb]; [unfold unlimited in U; lia|]. lia.
  Qed.

  Lemma stop_handled : forall e p s sig, is_kind xl tp e (Single sig) -> big p s ->
    N.of_nat (length (wanted skip left (flat_map saw (p ++ [(e, Single sig)])))) < 2 ^ 31 ->
    if full skip left (nlen (flat_map saw (p ++ [(e, Single sig)])))
    then exists s', traced_stop be xl e s = TClosed s' /\ gone_by (p ++ [(e, Single sig)]) s'
    else exists s', traced_stop be xl e s = TWaits s' /\ big (p ++ [(e, Single sig)]) s'.
  Proof.
    intros e p s sig (ST & GO & HA & W & RG & RP & PM & NL & SG) (B1 & B2 & B3 & B4) BD.
    rewrite saw_snoc in *. cbn [fst reports snd map] in *. unfold traced_stop.
    replace (e_pc e =? MINUS1) with false by lia.
    assert (RP' := RP). destruct RP' as (RA & RF & _).
    destruct (read_word be (e_mem e) (e_pc e) W RF) as (w & E1 & WL & E2). rewrite E2.
    assert (WA : word_at e (e_pc e) = w) by (unfold word_at; rewrite E1; reflexivity). rewrite WA in NL.
    destruct (is_larx w) eqn:LX; [apply is_larx_iff in LX; [contradiction|exact WL]|].
    assert (SE : (if e_sig e =? SIGTRAP then option_map (fun t : bool => if t then 0 else e_sig e) (e_trace e)
                  else Some (e_sig e)) = Some sig).
    { unfold SIGTRAP. destruct (e_sig e =? 5) eqn:S5.
      - destruct SG as (t & -> & ->). cbn [option_map]. apply N.eqb_eq in S5. rewrite S5. reflexivity.
      - rewrite SG. reflexivity. }
    rewrite SE.
    destruct (print_one be xl skip left e (e_mem e) (flat_map saw p) s (e_pc e)) as (s' & P1 & P2 & P3 & P4); try assumption;
      try reflexivity.
    rewrite P1. assert (P2' := P2). destruct P2' as (_ & P5 & _). rewrite P5, left_full.
    assert (TH : threads max l0 (p ++ [(e, Single sig)]) = threads max l0 p) by (rewrite threads_snoc; reflexivity).
    destruct (full skip left _).
    - exists (detach_all_threads s'). split; [reflexivity|]. unfold gone_by. rewrite saw_snoc, TH. split; [|split].
      + apply inv_asks, P2.
      + rewrite removelast_last. unfold farewell. rewrite rev_app_distr. cbn [rev app]. rewrite TH.
        unfold detach_all_threads. cbn [asks t_done]. rewrite P4, B2. cbn [app]. do 2 f_equal.
        rewrite P3. destruct B3 as (_ & _ & B3). unfold live in B3. rewrite <- B3, map_map. reflexivity.
      + cbn [detach_all_threads asks t_pids]. rewrite P3. exact B3.
    - unfold ask. rewrite GO. eexists. split; [reflexivity|]. unfold big. rewrite saw_snoc, TH, resp_snoc.
      split; [apply inv_asks, P2|]. split; [cbn [asks t_done]; rewrite P4, B2; reflexivity|].
      split; [cbn [asks t_pids]; rewrite P3; exact B3|exact B4].
  Qed.

  Lemma atomic_handled : forall e p s to, is_kind xl tp e (Atomic to) -> big p s ->
    N.of_nat (length (wanted skip left (flat_map saw (p ++ [(e, Atomic to)])))) < 2 ^ 31 ->
    exists s', traced_stop be xl e s = TWaits s' /\ big (p ++ [(e, Atomic to)]) s'.
  Proof.
    intros e p s to (ST & GO & HA & W & RG & LV & P4 & PM & TL & RP) (B1 & B2 & B3 & B4) BD.
    rewrite saw_snoc in *. cbn [fst reports snd map] in *. unfold traced_stop.
    replace (e_pc e =? MINUS1) with false by (unfold MAXP, MINUS1 in *; lia).
    assert (LV' := LV). destruct LV' as (n & (_ & Q1 & _) & _ & _ & Q2 & _).
    specialize (Q2 0%nat ltac:(lia)). replace (e_pc e + 4 * N.of_nat 0) with (e_pc e) in Q2 by lia.
    destruct (read_word be (e_mem e) (e_pc e) W Q2) as (w & E1 & WL & E2). rewrite E2.
    assert (LX : is_larx w = true) by (apply is_larx_iff; [exact WL|apply Q1, E1]). rewrite LX.
    destruct (atomic_steps be e to W LV P4 PM TL) as (m & ret & E3 & WM & MM). rewrite E3.
    destruct (print_many be xl skip left e m (spanned (e_pc e) to) (flat_map saw p) (asks s [Cont (e_pid e) 0]))
      as (s' & P1 & P2 & P3 & P5); try assumption.
    { apply Forall_forall. intros a IA. apply spanned_range in IA. split; apply MM; lia. }
    rewrite P1. unfold ask. rewrite GO. eexists. split; [reflexivity|].
    assert (TH : threads max l0 (p ++ [(e, Atomic to)]) = threads max l0 p) by (rewrite threads_snoc; reflexivity).
    unfold big. rewrite saw_snoc, TH, resp_snoc.
    split; [apply inv_asks, P2|]. split; [cbn [asks t_done]; rewrite P5; cbn [asks t_done]; rewrite B2, <- app_assoc; reflexivity|].
    split; [cbn [asks t_pids]; rewrite P3; exact B3|exact B4].
  Qed.

  Lemma add_ok : forall t l v, holds max t l -> (length l <= max)%nat ->
    exists t' r, add_pid max t v = Some (t', r) /\ holds max t' (fst (spec_op max l (Add v)))
      /\ (length (fst (spec_op max l (Add v))) <= max)%nat.
  Proof.
    intros t l v H L. destruct (do_op_ok max t l (Add v) H L) as (t' & E & H1 & H2).
    exists t'. eexists. split; [exact E|]. split; assumption.
  Qed.
  Lemma remove_ok : forall t l v, holds max t l -> (length l <= max)%nat ->
    exists t', remove_pid t v = Some t' /\ holds max t' (fst (spec_op max l (Remove v)))
      /\ (length (fst (spec_op max l (Remove v))) <= max)%nat.
  Proof.
    intros t l v H L. destruct (do_op_ok max t l (Remove v) H L) as (t' & E & H1 & H2).
    cbn [do_op] in E. destruct (remove_pid t v) as [t1|]; [|discriminate]. injection E as ->.
    exists t'. split; [reflexivity|]. split; assumption.
  Qed.
  Lemma run_one : forall l o, fst (spec_run max l [o]) = fst (spec_op max l o).
  Proof. intros l o. cbn [spec_run]. destruct (spec_op max l o). reflexivity. Qed.

  Lemma plain_event : forall e, plain e ->
    (e_event e =? PTRACE_EVENT_CLONE) || (e_event e =? PTRACE_EVENT_VFORK) || (e_event e =? PTRACE_EVENT_FORK) = false
    /\ (e_event e =? PTRACE_EVENT_EXIT) = false.
  Proof.
    intros e [N1 N2]. unfold birth in N1. cbn [In] in N1.
    unfold PTRACE_EVENT_CLONE, PTRACE_EVENT_VFORK, PTRACE_EVENT_FORK, PTRACE_EVENT_EXIT. clear -N1 N2. lia.
  Qed.

  Lemma handled : forall e k p s, is_kind xl tp e k -> big p s ->
    N.of_nat (length (wanted skip left (flat_map saw (p ++ [(e, k)])))) < 2 ^ 31 ->
    if over tp skip left (nlen (flat_map saw (p ++ [(e, k)]))) (e, k)
    then exists s', handle be max xl tp e s = TClosed s' /\ gone_by (p ++ [(e, k)]) s'
    else exists s', handle be max xl tp e s = TWaits s' /\ big (p ++ [(e, k)]) s'.
  Proof.
    intros e k p s K B BD. assert (K' := K). destruct K' as (ST & GO & K'). unfold handle. rewrite ST. cbn [negb].
    destruct k as [c| | | |sig|to]; unfold over; cbn [snd fst].
    - destruct K' as [BR MS]. destruct B as (B1 & B2 & B3 & B4).
      replace ((e_event e =? PTRACE_EVENT_CLONE) || (e_event e =? PTRACE_EVENT_VFORK) || (e_event e =? PTRACE_EVENT_FORK))
        with true.
      2:{ unfold birth in BR. cbn [In] in BR. unfold PTRACE_EVENT_CLONE, PTRACE_EVENT_VFORK, PTRACE_EVENT_FORK.
          clear -BR. destruct BR as [<-|[<-|[<-|[]]]]; reflexivity. }
      rewrite MS. destruct (add_ok (t_pids s) _ c B3 B4) as (t' & r & E & H1 & H2). rewrite E.
      change [if (e_pid e =? tp)%Z then Step (e_pid e) 0 else Cont (e_pid e) 0] with (response tp (e, Born c)).
      apply big_ask; try assumption; try reflexivity.
      + rewrite threads_snoc. cbn [change snd]. rewrite run_one. exact H1.
      + rewrite threads_snoc. cbn [change snd]. rewrite run_one. exact H2.
    - destruct B as (B1 & B2 & B3 & B4). rewrite K'. cbn [N.eqb Pos.eqb orb PTRACE_EVENT_CLONE PTRACE_EVENT_VFORK PTRACE_EVENT_FORK PTRACE_EVENT_EXIT].
      destruct (remove_ok (t_pids s) _ (e_pid e) B3 B4) as (t' & E & H1 & H2). rewrite E.
      assert (TH : threads max l0 (p ++ [(e, Gone)]) = fst (spec_op max (threads max l0 p) (Remove (e_pid e)))).
      { rewrite threads_snoc. cbn [change snd fst]. rewrite run_one. reflexivity. }
      destruct (e_pid e =? tp)%Z eqn:PT.
      + exists (set_pids s t'). split; [reflexivity|]. unfold gone_by. rewrite saw_snoc. cbn [reports snd fst map].
        rewrite app_nil_r. split; [apply inv_pids, B1|]. rewrite removelast_last. unfold farewell.
        rewrite rev_app_distr. cbn [rev app]. rewrite app_nil_r, TH. split; [exact B2|exact H1].
      + change [Detach (e_pid e)] with (response tp (e, Gone)).
        apply big_ask; try assumption; try reflexivity; rewrite ?TH; assumption.
    - destruct K' as [PL SG]. destruct (plain_event e PL) as [-> ->]. destruct B as (B1 & B2 & B3 & B4).
      rewrite SG. cbn [N.eqb Pos.eqb SIGSTKFLT].
      change [if (e_pid e =? tp)%Z then Step (e_pid e) 0 else Cont (e_pid e) 0] with (response tp (e, Stray)).
      apply big_ask; try assumption; try reflexivity; rewrite threads_snoc; assumption.
    - destruct K' as (PL & SG & NT). destruct (plain_event e PL) as [-> ->]. destruct B as (B1 & B2 & B3 & B4).
      replace (e_sig e =? SIGSTKFLT) with false by (unfold SIGSTKFLT; lia).
      replace (negb (e_pid e =? tp)%Z) with true by lia.
      change [Cont (e_pid e) (if e_sig e =? SIGILL then 0 else e_sig e)] with (response tp (e, Signal)).
      apply big_ask; try assumption; try reflexivity; rewrite threads_snoc; assumption.
    - assert (HA := K'). destruct HA as ((PL & SG & NT) & _). destruct (plain_event e PL) as [-> ->].
      replace (e_sig e =? SIGSTKFLT) with false by (unfold SIGSTKFLT; lia).
      replace (negb (e_pid e =? tp)%Z) with false by lia.
      apply stop_handled; assumption.
    - assert (HA := K'). destruct HA as ((PL & SG & NT) & _). destruct (plain_event e PL) as [-> ->].
      replace (e_sig e =? SIGSTKFLT) with false by (unfold SIGSTKFLT; lia).
      replace (negb (e_pid e =? tp)%Z) with false by lia.
      apply atomic_handled; assumption.
  Qed.

  Lemma loop_ok : forall evs ks p s, Forall2 (is_kind xl tp) evs ks -> big p s ->
    let (q, c) := session tp skip left (nlen (flat_map saw p)) (combine evs ks) in
    N.of_nat (length (wanted skip left (flat_map saw (p ++ q)))) < 2 ^ 31 ->
    exists s', main_loop be max xl tp s evs = (if c then TClosed s' else TWaits s')
      /\ (if c then gone_by (p ++ q) s' else big (p ++ q) s').
  Proof.
    intros evs. induction evs as [|e evs IH]; intros ks p s F B; inversion F as [|? k ? ks' K F']; subst.
    - cbn. rewrite app_nil_r. intros _. exists s. split; [reflexivity|exact B].
    - cbn [combine session main_loop].
      assert (NS : nlen (flat_map saw p) + N.of_nat (length (reports (e, k))) = nlen (flat_map saw (p ++ [(e, k)]))).
      { rewrite saw_snoc. unfold nlen. rewrite app_length, map_length. lia. }
      rewrite NS. destruct (over tp skip left _ (e, k)) eqn:OV.
      + intros BD. pose proof (handled e k p s K B BD) as H. rewrite OV in H. destruct H as (s' & -> & H).
        exists s'. split; [reflexivity|exact H].
      + specialize (IH ks' (p ++ [(e, k)])).
        destruct (session tp skip left (nlen (flat_map saw (p ++ [(e, k)]))) (combine evs ks')) as [q c].
        replace (p ++ (e, k) :: q) with ((p ++ [(e, k)]) ++ q) by (rewrite <- app_assoc; reflexivity).
        intros BD. pose proof (handled e k p s K B) as H. rewrite OV in H.
        destruct H as (s1 & -> & H).
        { rewrite flat_map_app in BD. pose proof (wanted_short _ skip left (flat_map saw (p ++ [(e, k)])) (flat_map saw q)). lia. }
        apply IH; assumption.
  Qed.

  Lemma big_start : forall t, holds max t l0 -> big [] (start skip left t tp).
  Proof.
    intros t H. unfold big. cbn [flat_map]. split; [|split; [reflexivity|split; [exact H|exact L0]]].
    unfold inv. cbn [start t_skip t_left t_maps t_out length nlen]. unfold nlen. cbn [length].
    split; [lia|]. split; [destruct (unlimited left); lia|].
    exists [], []. rewrite wanted_nil. repeat split; constructor.
  Qed.
End LOOP.

(** ** The file *)
Lemma told_words : forall xl h l gs h', told xl h l gs h' -> map g_insn gs = map s_word l.
Proof.
  intros xl h l gs h' T. induction T as [|h s g h1 l gs h2 S1 T IH]; [reflexivity|].
  cbn [map]. rewrite IH. destruct S1 as (-> & _). reflexivity.
Qed.
Lemma words_nonzero : forall gs, Forall (fun g => g_insn g <> 0) gs -> words_good gs.
Proof.
  intros [|g gs] H; [exact I|]. inversion H as [|? ? H1 H2]; subst. split; [exact H1|].
  clear H H1. revert g. induction gs as [|g' gs IH]; intros g; [exact I|].
  inversion H2; subst. split; [intros Z; contradiction|]. apply IH. assumption.
Qed.

Lemma agree_lt : forall gs qs, Forall2 (agrees false) gs qs -> Forall (fun g => g_insn g < 2 ^ 32) gs.
Proof.
  intros gs qs F. induction F as [|g q gs qs A F IH]; constructor; [|exact IH].
  destruct A as (<- & _ & _ & _ & _ & _ & _ & _ & _ & _ & _ & (T & _) & _). exact T.
Qed.
Lemma ptracer_ok : forall be xl max tp skip left l0 t evs ks slack,
  left < 2 ^ 64 -> holds max t l0 -> (length l0 <= max)%nat -> Forall2 (is_kind xl tp) evs ks ->
  (4 <= length slack)%nat ->
  let '(p, c) := session tp skip left 0 (combine evs ks) in
  let w := wanted skip left (flat_map saw p) in
  N.of_nat (length w) < 2 ^ 31 -> Forall (fun x => s_word x <> 0) w ->
  exists s, main_loop be max xl tp (start skip left t tp) evs = (if c then TClosed s else TWaits s)
    /\ t_done s = Step tp 0 :: responses max tp l0 (p, c)
    /\ holds max (t_pids s) (threads max l0 p)
    /\ exists gs h bytes, told xl [] w gs h /\ write_trace 0 (t_out s) = inr bytes
       /\ converted gs (map view_of (fst (read_trace false false slack bytes)))
       /\ snd (read_trace false false slack bytes) = EndFalse.
Proof.
  intros be xl max tp skip left l0 t evs ks slack LB H L0 F SL.
  pose proof (loop_ok be xl max tp skip left l0 LB L0 evs ks [] (start skip left t tp) F
    (big_start xl max tp skip left l0 LB L0 t H)) as LK. cbn [flat_map app nlen length] in LK.
  change (nlen []) with 0 in LK.
  destruct (session tp skip left 0 (combine evs ks)) as [p c]. intros w BD NZ. subst w.
  destruct (LK BD) as (s & E & R). exists s. split; [exact E|].
  assert (R' : inv xl skip left (flat_map saw p) s /\ t_done s = Step tp 0 :: responses max tp l0 (p, c)
      /\ holds max (t_pids s) (threads max l0 p)).
  { destruct c; [destruct R as (R1 & R2 & R3)|destruct R as (R1 & R2 & R3 & _)]; repeat split; try assumption; apply R1 || apply R3. }
  destruct R' as ((_ & _ & gs & h & I3 & I4 & I5 & I6 & I7) & D & HP). split; [exact D|]. split; [exact HP|].
  assert (WG : words_good gs).
  { apply words_nonzero. apply told_words in I3. apply Forall_forall. intros g G.
    apply (in_map g_insn) in G. rewrite I3 in G. apply in_map_iff in G. destruct G as (x & <- & G).
    eapply Forall_forall in NZ; [exact NZ|exact G]. }
  destruct (convert_agree false gs (t_out s) slack I4 WG (agree_lt _ _ I4)) as (bytes & B1 & B2 & B3); [|exact SL|].
  { intros g q _ HQ _. destruct (t_out s) as [|q' qs]; [discriminate|]. injection HQ as ->.
    inversion I7 as [|? ? Z _]; subst. rewrite Z. reflexivity. }
  exists gs, h, bytes. auto.
Qed.
