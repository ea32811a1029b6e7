(** Proofs for C60. *)
Require Import NArith ZArith List Bool Lia Permutation.
Require Import Verif.Word Verif.Pids_Model Verif.Pids_Spec Verif.Pids_Proofs Verif.Tracer_Model Verif.Forward_Model Verif.Forward_Spec.
Import ListNotations.
Local Open Scope N_scope.

Definition pair_of (p : pid) : Z * Z := (p_pid p, p_fd p).
Definition keeps (max : nat) (t : table) (l : counters) : Prop :=
  length (slots t) = max /\ nr_pids t = length l /\ map pair_of (live t) = l.

Lemma keeps_holds : forall max t l, keeps max t l -> holds max t (map fst l).
Proof.
  intros max t l (A & B & C). split; [exact A|]. split; [rewrite map_length; exact B|].
  rewrite <- C, map_map. reflexivity.
Qed.
Lemma counter_index : forall v l, match index_of v (map fst l) with
  | Some k => exists fd, nth_error l k = Some (v, fd) /\ counter_of v l = Some fd /\ without v l = firstn k l ++ skipn (S k) l
  | None => counter_of v l = None
  end.
Proof.
  intros v l. induction l as [|[x fd] l IH]; [reflexivity|]. cbn [map fst index_of counter_of without snd].
  destruct (x =? v)%Z eqn:E.
  - apply Z.eqb_eq in E. subst x. exists fd. repeat split.
  - destruct (index_of v (map fst l)) as [k|]; cbn [option_map]; [|exact IH].
    destruct IH as (fd' & A & B & C). exists fd'. split; [exact A|]. split; [exact B|]. rewrite C. reflexivity.
Qed.
Lemma live_nth : forall t k p, nth_error (live t) k = Some p -> nth_error (slots t) k = Some p.
Proof.
  intros t k p H. unfold live in H.
  assert (K : (k < nr_pids t)%nat).
  { assert (X : (k < length (firstn (nr_pids t) (slots t)))%nat) by (apply nth_error_Some; congruence).
    rewrite firstn_length in X. lia. }
  rewrite <- H. clear H. revert k K. generalize (nr_pids t). induction (slots t) as [|x l IH]; intros n k K.
  - rewrite firstn_nil. reflexivity.
  - destruct n as [|n]; [lia|]. destruct k as [|k]; [reflexivity|]. cbn. apply IH. lia.
Qed.

Section FORWARD.
  Variable max : nat.
  Variable period : N.

  (** ** Setting up *)
  Fixpoint assign (fds : nat -> option Z) (i : nat) (l : list pid) : list pid :=
    match l with
    | [] => []
    | p :: l => mk_pid (p_pid p) (match fds i with Some f => f | None => 0%Z end) :: assign fds (S i) l
    end.
  Lemma set_nth_app : forall pre p r v, set_nth (pre ++ p :: r) (length pre) v = pre ++ v :: r.
  Proof.
    intros pre p r v. unfold set_nth. rewrite firstn_app, Nat.sub_diag, firstn_all. cbn [firstn].
    rewrite app_nil_r. f_equal. f_equal. rewrite skipn_app, skipn_all2 by lia.
    replace (S (length pre) - length pre)%nat with 1%nat by lia. reflexivity.
  Qed.
  Lemma setup_all_ok : forall fds mid pre post nr a, (forall i, fds i <> None) ->
    setup_all (mk_table (pre ++ mid ++ post) nr) (length pre) (length mid) period fds a
    = FWaits (mk_table (pre ++ assign fds (length pre) mid ++ post) nr)
        (a ++ map (fun p => Open (p_pid p) period (p_fd p)) (assign fds (length pre) mid)).
  Proof.
    intros fds mid. induction mid as [|p mid IH]; intros pre post nr a F.
    - cbn. rewrite app_nil_r. reflexivity.
    - cbn [length setup_all app]. unfold setup_insn_counter. cbn [slots nr_pids].
      rewrite nth_error_app2, Nat.sub_diag by lia. cbn [nth_error].
      destruct (fds (length pre)) as [fd|] eqn:E; [|exfalso; apply (F _ E)].
      rewrite set_nth_app.
      specialize (IH (pre ++ [mk_pid (p_pid p) fd]) post nr (a ++ [Open (p_pid p) period fd]) F).
      rewrite app_length in IH. cbn [length] in IH. replace (length pre + 1)%nat with (S (length pre)) in IH by lia.
      rewrite <- !app_assoc in IH. cbn [app] in IH. rewrite IH. cbn [assign map p_pid p_fd]. rewrite E.
      reflexivity.
  Qed.
  Lemma assign_pids : forall fds l i, map p_pid (assign fds i l) = map p_pid l.
  Proof. intros fds l. induction l as [|p l IH]; intros i; [reflexivity|]. cbn. rewrite IH. reflexivity. Qed.
  Lemma assign_length : forall fds l i, length (assign fds i l) = length l.
  Proof. intros fds l i. rewrite <- (map_length p_pid), assign_pids, map_length. reflexivity. Qed.

  Lemma assign_pairs : forall fds l i, map pair_of (assign fds i l)
    = combine (map p_pid l) (map (fun i => match fds i with Some fd => fd | None => 0%Z end) (seq i (length l))).
  Proof. intros fds l. induction l as [|p l IH]; intros i; [reflexivity|]. cbn. rewrite IH. reflexivity. Qed.

  Lemma setup_keeps : forall fds t ids, holds max t ids -> (length ids <= max)%nat -> (forall i, fds i <> None) ->
    exists t', setup_all t 0 (nr_pids t) period fds [] = FWaits t' (map (fun x => Open (fst x) period (snd x)) (given ids fds))
      /\ keeps max t' (given ids fds).
  Proof.
    intros fds t ids (A & B & C) L F. destruct t as [sl nr]. cbn [slots nr_pids] in *. unfold live in C. cbn [slots nr_pids] in C.
    assert (E : sl = [] ++ firstn nr sl ++ skipn nr sl) by (cbn; symmetry; apply firstn_skipn).
    assert (LM : length (firstn nr sl) = nr) by (rewrite firstn_length; lia).
    pose proof (setup_all_ok fds (firstn nr sl) [] (skipn nr sl) nr [] F) as S1.
    rewrite <- E, LM in S1. cbn [length app] in S1. rewrite S1.
    assert (G : given ids fds = map pair_of (assign fds 0 (firstn nr sl))).
    { rewrite assign_pairs, LM. unfold given. rewrite <- C. f_equal. rewrite map_length, LM. reflexivity. }
    rewrite G. eexists. split; [rewrite map_map; reflexivity|].
    split; [cbn [slots]; rewrite app_length, assign_length, skipn_length; lia|].
    split; [cbn [nr_pids]; rewrite map_length, assign_length; lia|].
    unfold live. cbn [slots nr_pids]. f_equal. rewrite firstn_app, assign_length, LM, Nat.sub_diag. cbn [firstn].
    rewrite app_nil_r. apply firstn_all2. rewrite assign_length. lia.
  Qed.

  (** ** One event *)
  Lemma birth_eq : forall e, (f_event e =? PTRACE_EVENT_CLONE) || (f_event e =? PTRACE_EVENT_VFORK)
    || (f_event e =? PTRACE_EVENT_FORK) = fbirth e.
  Proof.
    intros e. unfold fbirth, PTRACE_EVENT_CLONE, PTRACE_EVENT_VFORK, PTRACE_EVENT_FORK. cbn [existsb].
    destruct (f_event e =? 1), (f_event e =? 2), (f_event e =? 3); reflexivity.
  Qed.
  Lemma stray_eq : forall e, stray e = f_stopped e && overflow e.
  Proof.
    intros e. unfold stray, overflow. rewrite birth_eq. unfold fdeath, PTRACE_EVENT_EXIT, SIGSTKFLT.
    rewrite !andb_assoc. reflexivity.
  Qed.

  Lemma keeps_set : forall t l v old fd i, keeps max t l -> (length l < max)%nat -> nth_error (slots t) (length l) = Some old ->
    i = length l ->
    exists t', setup_insn_counter (mk_table (set_nth (slots t) i (mk_pid v (p_fd old))) (S i)) i period (Some fd)
      = Some (Some (t', Open v period fd)) /\ keeps max t' (l ++ [(v, fd)]).
  Proof.
    intros t l v old fd i (A & B & C) L E ->. unfold setup_insn_counter. cbn [slots nr_pids].
    assert (LS : (length l < length (slots t))%nat) by lia.
    pose proof (split_slots (slots t) (length l) old E) as SP.
    assert (LF : length (firstn (length l) (slots t)) = length l) by (rewrite firstn_length; lia).
    assert (S1 : set_nth (slots t) (length l) (mk_pid v (p_fd old))
        = firstn (length l) (slots t) ++ mk_pid v (p_fd old) :: skipn (S (length l)) (slots t)) by reflexivity.
    rewrite S1. rewrite nth_error_app2 by lia. rewrite LF, Nat.sub_diag. cbn [nth_error p_pid].
    eexists. split; [reflexivity|].
    assert (S2 : set_nth (firstn (length l) (slots t) ++ mk_pid v (p_fd old) :: skipn (S (length l)) (slots t)) (length l) (mk_pid v fd)
        = firstn (length l) (slots t) ++ mk_pid v fd :: skipn (S (length l)) (slots t)).
    { pose proof (set_nth_app (firstn (length l) (slots t)) (mk_pid v (p_fd old)) (skipn (S (length l)) (slots t)) (mk_pid v fd)) as X.
      rewrite LF in X. exact X. }
    rewrite S2. split; [cbn [slots]; rewrite app_length; cbn [length]; rewrite LF, skipn_length; lia|].
    split; [cbn [nr_pids]; rewrite app_length; cbn; lia|].
    unfold live. cbn [slots nr_pids]. rewrite firstn_app, LF.
    replace (S (length l) - length l)%nat with 1%nat by lia. rewrite firstn_all2 by lia. cbn [firstn].
    rewrite map_app. cbn [map pair_of p_pid p_fd]. rewrite <- B at 1. unfold live in C. rewrite C. reflexivity.
  Qed.

  Lemma event_step : forall t l e a, keeps max t l -> (length l <= max)%nat -> event_ok max l e ->
    exists t', forward_event max period t a e = FWaits t' (a ++ actions period l e)
      /\ keeps max t' (after l e) /\ (length (after l e) <= max)%nat.
  Proof.
    intros t l e a K L (S1 & G1 & OV & BI & DE). unfold forward_event. rewrite S1, birth_eq. cbn [negb].
    unfold actions, after. destruct (fbirth e) eqn:FB.
    - destruct (BI eq_refl) as [LT FD]. destruct (f_fd e) as [fd|] eqn:EF; [|congruence].
      assert (K' := K). destruct K' as (A & B & C). unfold add_pid. rewrite B.
      replace (Nat.eqb (length l) max) with false by (symmetry; apply Nat.eqb_neq; lia).
      destruct (nth_error_lt (slots t) (length l)) as [old EO]; [lia|]. rewrite EO.
      destruct (keeps_set t l (f_msg e) old fd (length l) K LT EO eq_refl) as (t' & E' & K').
      rewrite E', G1. exists t'. split; [reflexivity|]. split; [exact K'|]. rewrite app_length. cbn [length]. lia.
    - unfold fdeath in *. change (f_event e =? PTRACE_EVENT_EXIT) with (f_event e =? 6).
      destruct (f_event e =? 6) eqn:FE.
      + assert (H := keeps_holds _ _ _ K). assert (L' : (length (map fst l) <= max)%nat) by (rewrite map_length; exact L).
        destruct (do_op_ok max t (map fst l) (Find (f_pid e)) H L') as (t1 & F1 & _ & _). cbn [do_op spec_op snd] in F1.
        destruct (find_pid t (f_pid e)) as [r|] eqn:FP; [|discriminate]. cbn [option_map] in F1. injection F1 as _ ->.
        destruct (do_op_ok max t (map fst l) (Remove (f_pid e)) H L') as (t2 & R1 & H2 & L2). cbn [do_op] in R1.
        destruct (remove_pid t (f_pid e)) as [t3|] eqn:RP; [|discriminate]. cbn [option_map] in R1. injection R1 as ->.
        pose proof (counter_index (f_pid e) l) as CI. specialize (DE eq_refl eq_refl).
        pose proof (remove_live t (f_pid e) t2 max (map fst l) H L' RP) as RL.
        destruct (index_of (f_pid e) (map fst l)) as [k|] eqn:IX; [|congruence].
        destruct CI as (fd & N1 & C1 & W1). rewrite C1.
        assert (K' := K). destruct K' as (A & B & C).
        assert (NS : exists p, nth_error (slots t) k = Some p /\ p_fd p = fd).
        { rewrite <- C in N1. rewrite nth_error_map in N1. destruct (nth_error (live t) k) as [p|] eqn:NE; [|discriminate].
          cbn [option_map] in N1. exists p. split; [apply live_nth, NE|]. unfold pair_of in N1. congruence. }
        destruct NS as (p & NS & <-). rewrite NS, G1. exists t2. split; [reflexivity|].
        assert (LW : map fst (without (f_pid e) l) = remove_first (f_pid e) (map fst l)).
        { rewrite W1, remove_index, IX, map_app, firstn_map, skipn_map. reflexivity. }
        cbn [spec_op fst] in H2, L2. rewrite <- LW in H2, L2. destruct H2 as (H2 & H3 & _). rewrite map_length in H3, L2.
        split; [|exact L2]. split; [exact H2|]. split; [exact H3|].
        rewrite RL, map_app, <- firstn_map, <- skipn_map, C. symmetry. exact W1.
      + rewrite G1. exists t. split; [reflexivity|]. split; [exact K|exact L].
  Qed.
End FORWARD.

Lemma loop_forward : forall max N0 count e rest evs t l a, keeps max t l -> (length l <= max)%nat ->
  events_ok max l evs -> f_stopped e = true -> overflow e = true -> counter_of (f_pid e) (at_end l evs) <> None ->
  exists t', forward_loop max N0 count t a (evs ++ e :: rest)
    = FDone t' (a ++ all_actions (sub64 N0 SLACK) l evs ++ map (fun x => Close (snd x)) (at_end l evs)) (f_pid e)
        (if N0 <? count then 0 else N0 - count)
    /\ keeps max t' (at_end l evs).
Proof.
  intros max N0 count e rest evs. induction evs as [|x evs IH]; intros t l a K L O S1 OV CO.
  - cbn [app forward_loop all_actions at_end fold_left]. rewrite stray_eq, S1, OV. cbn [andb].
    assert (H := keeps_holds _ _ _ K). assert (L' : (length (map fst l) <= max)%nat) by (rewrite map_length; exact L).
    destruct (do_op_ok max t (map fst l) (Find (f_pid e)) H L') as (t1 & F1 & _ & _). cbn [do_op spec_op snd] in F1.
    destruct (find_pid t (f_pid e)) as [r|] eqn:FP; [|discriminate]. cbn [option_map] in F1. injection F1 as _ ->.
    pose proof (counter_index (f_pid e) l) as CI. cbn [at_end fold_left] in CO.
    destruct (index_of (f_pid e) (map fst l)) as [k|]; [|contradiction].
    exists t. split; [|exact K]. destruct K as (_ & _ & C). rewrite <- C, map_map. reflexivity.
  - destruct O as [O1 O2]. cbn [app forward_loop]. rewrite stray_eq.
    assert (O1' := O1). destruct O1' as (S2 & _ & OV2 & _). rewrite OV2, andb_false_r.
    destruct (event_step max (sub64 N0 SLACK) t l x a K L O1) as (t1 & E1 & K1 & L1). rewrite E1.
    destruct (IH t1 (after l x) (a ++ actions (sub64 N0 SLACK) l x) K1 L1 O2 S1 OV CO) as (t' & E' & K').
    exists t'. split; [|exact K']. rewrite E'. cbn [all_actions]. rewrite <- !app_assoc. reflexivity.
Qed.

Lemma given_length : forall ids fds, length (given ids fds) = length ids.
Proof. intros ids fds. unfold given. rewrite combine_length, map_length, seq_length. lia. Qed.

Lemma forward_ok : forall max N0 count fds t ids evs e rest,
  holds max t ids -> (length ids <= max)%nat -> (forall i, fds i <> None) ->
  events_ok max (given ids fds) evs -> f_stopped e = true -> overflow e = true ->
  counter_of (f_pid e) (at_end (given ids fds) evs) <> None ->
  exists t', fast_forward max N0 t fds count (evs ++ e :: rest)
      = FDone t' (map (fun x => Open (fst x) (sub64 N0 SLACK) (snd x)) (given ids fds) ++ map (fun x => Go (fst x) 0) (given ids fds)
         ++ all_actions (sub64 N0 SLACK) (given ids fds) evs ++ map (fun x => Close (snd x)) (at_end (given ids fds) evs))
         (f_pid e) (if N0 <? count then 0 else N0 - count)
    /\ holds max t' (map fst (at_end (given ids fds) evs)).
Proof.
  intros max N0 count fds t ids evs e rest H L F O S1 OV CO.
  destruct (setup_keeps max (sub64 N0 SLACK) fds t ids H L F) as (t1 & E1 & K1).
  unfold fast_forward. rewrite E1.
  assert (L' : (length (given ids fds) <= max)%nat) by (rewrite given_length; exact L).
  assert (LV : map (fun p => Go (p_pid p) 0) (live_of t1) = map (fun x => Go (fst x) 0) (given ids fds)).
  { destruct K1 as (_ & _ & C). rewrite <- C, map_map. reflexivity. }
  rewrite LV.
  destruct (loop_forward max N0 count e rest evs t1 (given ids fds)
    (map (fun x => Open (fst x) (sub64 N0 SLACK) (snd x)) (given ids fds) ++ map (fun x => Go (fst x) 0) (given ids fds)) K1 L' O S1 OV CO) as (t' & E' & K').
  exists t'. split; [|apply keeps_holds, K']. rewrite E'. rewrite <- app_assoc. reflexivity.
Qed.

(** ** Every counter is closed *)
Lemma without_perm : forall v l fd, counter_of v l = Some fd -> Permutation (map snd l) (fd :: map snd (without v l)).
Proof.
  intros v l. induction l as [|[x y] l IH]; intros fd H; [discriminate|]. cbn [counter_of fst snd without map] in *.
  destruct (x =? v)%Z.
  - injection H as ->. reflexivity.
  - cbn [map snd]. rewrite (IH fd H). apply perm_swap.
Qed.
Lemma flat_none : forall A B (f : A -> list B) l, (forall x, In x l -> f x = []) -> flat_map f l = [].
Proof. intros A B f l H. induction l as [|x l IH]; [reflexivity|]. cbn. rewrite H by (left; reflexivity). apply IH. intros y Y. apply H. right. exact Y. Qed.
Lemma opened_map : forall p (l : counters), opened (map (fun x => Open (fst x) p (snd x)) l) = map snd l.
Proof. intros p l. induction l as [|x l IH]; [reflexivity|]. cbn. f_equal. exact IH. Qed.
Lemma closed_map : forall (l : counters), closed (map (fun x => Close (snd x)) l) = map snd l.
Proof. intros l. induction l as [|x l IH]; [reflexivity|]. cbn. f_equal. exact IH. Qed.

Lemma actions_perm : forall max p l e, event_ok max l e ->
  Permutation (map snd l ++ opened (actions p l e)) (closed (actions p l e) ++ map snd (after l e)).
Proof.
  intros max p l e (_ & _ & _ & BI & DE). unfold actions, after. destruct (fbirth e).
  - destruct (BI eq_refl) as [_ F]. destruct (f_fd e) as [fd|]; [|congruence]. cbn. rewrite map_app. reflexivity.
  - destruct (fdeath e).
    + specialize (DE eq_refl eq_refl). destruct (counter_of (f_pid e) l) as [fd|] eqn:C; [|congruence].
      cbn. rewrite app_nil_r. apply without_perm, C.
    + cbn. rewrite app_nil_r. reflexivity.
Qed.
Lemma all_perm : forall max p evs l, events_ok max l evs ->
  Permutation (map snd l ++ opened (all_actions p l evs)) (closed (all_actions p l evs) ++ map snd (at_end l evs)).
Proof.
  intros max p evs. induction evs as [|e evs IH]; intros l O.
  - cbn. rewrite app_nil_r. reflexivity.
  - destruct O as [O1 O2]. cbn [all_actions at_end fold_left]. unfold opened, closed. rewrite !flat_map_app.
    fold (opened (actions p l e)) (closed (actions p l e)). fold (opened (all_actions p (after l e) evs)) (closed (all_actions p (after l e) evs)).
    rewrite app_assoc, (actions_perm max p l e O1), <- !app_assoc. apply Permutation_app_head. apply (IH _ O2).
Qed.
Lemma all_periods : forall p evs l q, In q (periods (all_actions p l evs)) -> q = p.
Proof.
  intros p evs. induction evs as [|e evs IH]; intros l q H; [contradiction|].
  cbn [all_actions] in H. unfold periods in H. rewrite flat_map_app in H. apply in_app_or in H. destruct H as [H|H]; [|apply (IH _ _ H)].
  unfold actions in H. destruct (fbirth e); [destruct (f_fd e)|destruct (fdeath e); [destruct (counter_of _ _)|]]; cbn in H; intuition.
Qed.

Lemma forward_counters : forall max N0 count fds t ids evs e rest,
  holds max t ids -> (length ids <= max)%nat -> (forall i, fds i <> None) ->
  events_ok max (given ids fds) evs -> f_stopped e = true -> overflow e = true ->
  counter_of (f_pid e) (at_end (given ids fds) evs) <> None ->
  200 <= N0 < 2 ^ 64 ->
  exists t' acts skip, fast_forward max N0 t fds count (evs ++ e :: rest) = FDone t' acts (f_pid e) skip
    /\ Permutation (opened acts) (closed acts)
    /\ (forall q, In q (periods acts) -> q = N0 - 200)
    /\ (count <= N0 -> count + skip = N0).
Proof.
  intros max N0 count fds t ids evs e rest H L F O S1 OV CO R.
  destruct (forward_ok max N0 count fds t ids evs e rest H L F O S1 OV CO) as (t' & E & _).
  eexists. eexists. eexists. split; [exact E|].
  assert (SB : sub64 N0 SLACK = N0 - 200).
  { unfold sub64, SLACK, w64. change (2 ^ 64) with 18446744073709551616 in R. change (200 mod 18446744073709551616) with 200.
    replace (N0 + 18446744073709551616 - 200) with ((N0 - 200) + 1 * 18446744073709551616) by lia.
    rewrite N.mod_add by lia. apply N.mod_small. lia. }
  split; [|split].
  - unfold opened, closed. rewrite !flat_map_app. fold (opened (map (fun x => Open (fst x) (sub64 N0 SLACK) (snd x)) (given ids fds))).
    fold (opened (all_actions (sub64 N0 SLACK) (given ids fds) evs)) (closed (all_actions (sub64 N0 SLACK) (given ids fds) evs)).
    fold (closed (map (fun x : Z * Z => Close (snd x)) (at_end (given ids fds) evs))).
    rewrite opened_map, closed_map.
    rewrite !(flat_none _ _ _ (map (fun x => Go (fst x) 0) (given ids fds)))
      by (intros x X; apply in_map_iff in X; destruct X as (y & <- & _); reflexivity).
    rewrite (flat_none _ _ _ (map (fun x => Open (fst x) (sub64 N0 SLACK) (snd x)) (given ids fds)))
      by (intros x X; apply in_map_iff in X; destruct X as (y & <- & _); reflexivity).
    rewrite (flat_none _ _ _ (map (fun x : Z * Z => Close (snd x)) (at_end (given ids fds) evs)))
      by (intros x X; apply in_map_iff in X; destruct X as (y & <- & _); reflexivity).
    rewrite app_nil_r. cbn [app]. apply (all_perm max), O.
  - intros q Q. rewrite SB in Q. unfold periods in Q. rewrite !flat_map_app in Q.
    apply in_app_or in Q. destruct Q as [Q|Q].
    { apply in_flat_map in Q. destruct Q as (x & X & Q). apply in_map_iff in X. destruct X as (y & <- & _). cbn in Q. intuition. }
    apply in_app_or in Q. destruct Q as [Q|Q].
    { apply in_flat_map in Q. destruct Q as (x & X & Q). apply in_map_iff in X. destruct X as (y & <- & _). cbn in Q. intuition. }
    apply in_app_or in Q. destruct Q as [Q|Q].
    { apply (all_periods _ _ _ _ Q). }
    { apply in_flat_map in Q. destruct Q as (x & X & Q). apply in_map_iff in X. destruct X as (y & <- & _). cbn in Q. intuition. }
  - intros LE. destruct (N.ltb_spec N0 count); lia.
Qed.
