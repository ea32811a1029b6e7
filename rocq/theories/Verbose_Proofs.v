(** Proofs for C63: qtdis -v. *)
Require Import Arith NArith List Bool Lia ZifyBool ZifyN ZifyNat.
Require Import Verif.Word Verif.Codec_Types Verif.Writer_Model Verif.Writer_Proofs Verif.Branch_Model
  Verif.Reader_Model Verif.Reader_Spec Verif.Reader_Proofs Verif.Reader_Proofs2 Verif.Reader_Proofs3.
Require Import Verif.Codec_Spec Verif.Codec_Proofs Verif.Codec_Proofs2 Verif.Codec_Proofs3 Verif.Codec_Proofs4.
Require Import Verif.Qtdis_Model Verif.Qtdis_Spec Verif.Qtdis_Proofs Verif.Qtdis_Proofs2 Verif.Verbose_Model Verif.Verbose_Spec.
Import ListNotations.
Local Open Scope N_scope.

(** ** The lines are those without -v *)
Lemma loop_bare : forall slack n s b a,
  map bare (fst (verbose_loop n slack s b a)) = lines (fst (read_qt_loop n (mk_options 0 false false) slack s b a))
  /\ snd (verbose_loop n slack s b a) = snd (read_qt_loop n (mk_options 0 false false) slack s b a).
Proof.
  intros slack. induction n as [|n IH]; intros s b a; [split; reflexivity|].
  cbn [verbose_loop read_qt_loop].
  destruct (qtreader_next_record slack s b) as [[[r s1] b1]| |f]; [|split; reflexivity|split; reflexivity].
  destruct (negb (r_prefixed s1)) eqn:P.
  - unfold print_qt_record at 1 2. cbn [dump_nr stats blocks N.eqb negb orb app].
    specialize (IH s1 b1 (r_next_addr s1)). destruct (verbose_loop n slack s1 b1 (r_next_addr s1)) as [l e].
    destruct (read_qt_loop n _ slack s1 b1 (r_next_addr s1)) as [l' e'].
    cbn [fst snd] in *. destruct IH as [IH ->]. split; [|reflexivity].
    cbn [map app lines flat_map]. fold (lines l'). rewrite IH. reflexivity.
  - destruct (qtreader_next_record slack s1 b1) as [[[r2 s2] b2]| |f].
    + unfold print_qt_record at 1 2. cbn [dump_nr stats blocks N.eqb negb orb app].
      specialize (IH s2 b2 (r_next_addr s2)). destruct (verbose_loop n slack s2 b2 (r_next_addr s2)) as [l e].
      destruct (read_qt_loop n _ slack s2 b2 (r_next_addr s2)) as [l' e'].
      cbn [fst snd] in *. destruct IH as [IH ->]. split; [|reflexivity].
      cbn [map app lines flat_map]. fold (lines l'). rewrite IH. reflexivity.
    + split; reflexivity.
    + split; reflexivity.
Qed.
Lemma verbose_bare : forall slack b,
  map bare (fst (read_verbose slack b)) = lines (fst (read_qt (mk_options 0 false false) slack b))
  /\ snd (read_verbose slack b) = snd (read_qt (mk_options 0 false false) slack b).
Proof.
  intros slack b. unfold read_verbose, read_qt. destruct (qtreader_initialize b) as [[s b']| |f]; [|split; reflexivity|split; reflexivity].
  apply loop_bare.
Qed.

(** ** The mark *)
Lemma parse_core_radix : forall s b r s' b', parse_core s b = ROk ((r, s'), b') ->
  rx_nr_ptes (q_radix_data (o_q r)) <> 0 -> q_data_ra_valid (o_q r) = true.
Proof.
  intros s b r s' b' E. unfold parse_core in E. cbv zeta in E.
  do 27 (apply bind_inv in E as (? & ? & ? & E)).
  apply ret_pos in E as [_ E]. apply pair_equal_spec in E as [-> _]. cbn [o_q q_radix_data q_data_ra_valid].
  match goal with H : opt (has ?f F_DATA_RPN && _) _ zero_radix _ = ROk (?d, _) |- _ =>
    intros N; destruct (has f F_DATA_RPN) eqn:F; [reflexivity|]; cbn [andb opt] in H; apply ret_pos in H as [_ ->] end.
  exfalso. apply N. reflexivity.
Qed.
Lemma next_radix : forall slack s b r s' b', qtreader_next_record slack s b = ROk ((r, s'), b') ->
  rx_nr_ptes (q_radix_data (o_q r)) <> 0 -> q_data_ra_valid (o_q r) = true.
Proof.
  intros slack s b r s' b' E. apply next_record_inv in E as (s1 & pre & b1 & _ & _ & E).
  apply parse_record_inv in E as (r0 & E & HA). apply annotate_keeps in HA as (Hq & _). rewrite Hq.
  apply (parse_core_radix _ _ _ _ _ E).
Qed.
Lemma mark_ok : forall slack s b r s' b' a, qtreader_next_record slack s b = ROk ((r, s'), b') ->
  (v_mark (print_verbose s' r a) = true <-> v_notes (print_verbose s' r a) <> []).
Proof.
  intros slack s b r s' b' a E0. pose proof (next_radix _ _ _ _ _ _ E0) as E. clear E0. unfold print_verbose, v_mark, v_notes, mark, notes. cbn [fst snd].
  destruct (q_data_addr_valid (o_q r)); [cbn; split; congruence|].
  destruct (q_data_ra_valid (o_q r)); [cbn; split; congruence|].
  assert (Z : rx_nr_ptes (q_radix_data (o_q r)) =? 0 = true).
  { destruct (N.eqb_spec (rx_nr_ptes (q_radix_data (o_q r))) 0) as [|N]; [reflexivity|]. discriminate (E N). }
  rewrite Z.
  destruct (q_data_ps_valid (o_q r)), (x_rpn_v (r_nxt s')), (x_ps_v (r_nxt s')), (o_node_valid r), (q_branch (o_q r));
    cbn; split; congruence.
Qed.
Lemma loop_marks : forall slack n s b a,
  Forall (fun v => v_mark v = true <-> v_notes v <> []) (fst (verbose_loop n slack s b a)).
Proof.
  intros slack. induction n as [|n IH]; intros s b a; [constructor|].
  cbn [verbose_loop].
  destruct (qtreader_next_record slack s b) as [[[r s1] b1]| |f] eqn:E; [|constructor|constructor].
  destruct (negb (r_prefixed s1)) eqn:P.
  - specialize (IH s1 b1 (r_next_addr s1)). destruct (verbose_loop n slack s1 b1 (r_next_addr s1)) as [l e].
    constructor; [apply (mark_ok _ _ _ _ _ _ _ E)|exact IH].
  - destruct (qtreader_next_record slack s1 b1) as [[[r2 s2] b2]| |f].
    + specialize (IH s2 b2 (r_next_addr s2)). destruct (verbose_loop n slack s2 b2 (r_next_addr s2)) as [l e].
      constructor; [apply (mark_ok _ _ _ _ _ _ _ E)|exact IH].
    + constructor; [apply (mark_ok _ _ _ _ _ _ _ E)|constructor].
    + constructor.
Qed.
Lemma marks : forall slack b, Forall (fun v => v_mark v = true <-> v_notes v <> []) (fst (read_verbose slack b)).
Proof.
  intros slack b. unfold read_verbose. destruct (qtreader_initialize b) as [[s b']| |f]; [|constructor|constructor].
  apply loop_marks.
Qed.

(** ** Written traces *)
Lemma next_exact s t p c slack tail :
  rel s t p -> typed p -> typed c -> shifts_ok p -> shifts_ok c -> pair_frames p c ->
  (q_insn p = 0 -> r_prefixed s = true) ->
  exists ra dra, let r := Codec_Proofs2.out_rec s p c ra dra in
    qtreader_next_record slack s (stored p c ++ tail) = ROk ((r, out_state s p c), tail) /\
    view_of r = expected_one t p c /\
    rel (out_state s p c) (next_trans t p c) c /\
    r_prefixed (out_state s p c) = is_prefix_word (q_insn p).
Proof.
  intros R Tp Tc Sp Sc F Z.
  pose proof (pair_walk_cond _ _ F) as W.
  destruct (next_stored s t p c slack tail R Tp Tc Sp Sc F Z) as (r & E & V & R' & P).
  eexists. eexists. cbv zeta. split; [|split; [|split; [exact R'|exact P]]].
  2: apply (view_out s t p c R Tp Sp Sc W).
  assert (EC := parse_core_stored s p c tail Tp Tc Sp Sc W (proj1 R)). cbv zeta in EC.
  apply next_record_inv in E as (s1 & pre & b1 & EB & ES & E).
  unfold qtreader_next_record.
  rewrite skip_headers_none in *.
  3,5: unfold u32_at, stored; cbn [skipn]; unfold put32; rewrite <- app_assoc, firstn_put, be_val_put;
    change (256 ^ N.of_nat 4) with (2 ^ 32); rewrite N.mod_small by apply Tp; destruct (N.eq_dec (q_insn p) 0); auto.
  2,3: unfold stored; rewrite !app_length; unfold put32; rewrite put_be_length; lia.
  unfold parse_record. erewrite bind_ok.
  2:{ apply EC. destruct R as (_ & _ & _ & (_ & Rp & _) & _ & _ & _ & _ & R64).
      intros V1. rewrite V1 in Rp. apply R64. now rewrite <- Rp. }
  cbn [fst snd]. rewrite annotate_none by apply R. reflexivity.
Qed.

Definition user (v : vline) : list shown := flat_map seen (v_notes v).
Lemma flat_if : forall c n, flat_map seen (note_if c n) = if c then seen n else [].
Proof. intros [] n; [|reflexivity]. cbn. apply app_nil_r. Qed.
Lemma walk_list : forall (f : wk -> shown) w, (if negb (rx_nr_ptes w =? 0) then list_of f (walk_of (rx_type w) w) else [])
  = list_of f (walk_of (rx_type w) w).
Proof.
  intros f w. destruct (N.eqb_spec (rx_nr_ptes w) 0) as [E|E]; [|reflexivity]. rewrite (walk_of_nr0 _ _ E). reflexivity.
Qed.
Lemma notes_written : forall s t p c ra dra a, rel s t p -> view_of (Codec_Proofs2.out_rec s p c ra dra) = expected_one t p c ->
  user (print_verbose (out_state s p c) (Codec_Proofs2.out_rec s p c ra dra) a) = notes_of t p c.
Proof.
  intros s t p c ra dra a R V. unfold user, print_verbose, v_notes, notes. cbn [snd]. rewrite !flat_map_app, !flat_if.
  unfold notes_of. rewrite <- V.
  assert (DT : discontinuity p c = iar_change p c) by apply disc_eq.
  assert (WK : forall b : bool, (if b && negb (rx_nr_ptes (x_radix (promote (r_cur s) (r_nxt s))) =? 0)
    then list_of SInsnWalk (walk_of (rx_type (x_radix (promote (r_cur s) (r_nxt s)))) (x_radix (promote (r_cur s) (r_nxt s)))) else [])
    = if b then list_of SInsnWalk (t_walk t) else []).
  { intros [|]; [|reflexivity]. rewrite andb_true_l, walk_list.
    destruct R as (_ & _ & _ & _ & _ & Rw & Rt & Rn & _). rewrite <- Rw.
    unfold promote. cbn [x_radix]. destruct (N.eqb_spec (rx_nr_ptes (x_radix (r_nxt s))) 0) as [Z|Z].
    - rewrite !walk_of_nr0; auto.
    - rewrite Rt. reflexivity. }
  unfold data_seen, insn_seen, term_seen. rewrite DT.
  cbn [view_of v_daddr v_dra v_dps v_dwalk].
  cbn [out_state r_nxt r_cur x_rpn_v x_rpn x_ps_v x_ps Codec_Proofs2.out_rec o_q o_node_valid o_node o_term_node o_term_code
    q_data_addr_valid q_data_addr q_data_ra_valid q_data_ra q_data_ps_valid q_data_ps q_branch q_radix_data seen].
  rewrite walk_list, WK. unfold data_rpn. cbn [q_data_ra q_data_ps_valid q_data_ps].
  rewrite <- !app_assoc. f_equal; [|f_equal; [|f_equal; f_equal]].
  - destruct (q_data_addr_valid p); reflexivity.
  - destruct (q_data_ra_valid p); [|reflexivity]. cbn [optb list_of]. rewrite N.shiftr_div_pow2.
    destruct (q_data_ps_valid p); reflexivity.
  - destruct (q_data_ps_valid p); reflexivity.
  - unfold rec_is_branch, term_code, T_MAX_BRANCH_DEPTH, T_UNCONDITIONAL, T_EXCEPTION.
    destruct (iar_change p c); rewrite ?andb_true_r, ?andb_false_r.
    + rewrite orb_true_r. cbn [orb].
      destruct (q_insn_ra_valid c), (q_insn_ps_valid c), (q_branch p), (q_cond p), (t_walk t); reflexivity.
    + rewrite orb_false_r.
      destruct (q_branch p), (q_cond p), (is_conditional_branch (q_insn p)); reflexivity.
Qed.

Fixpoint all_bytes (p : qrec) (rs : list qrec) : list N :=
  match rs with [] => stored p (successor p) | c :: rs' => stored p c ++ all_bytes c rs' end.
Lemma all_chain : forall rs p, all_bytes p rs = chain_bytes p rs ++ stored (last rs p) (successor (last rs p)).
Proof.
  induction rs as [|c rs IH]; intros p; [reflexivity|]. cbn [all_bytes chain_bytes]. rewrite IH, <- app_assoc. f_equal. f_equal.
  assert (Hlast : last (c :: rs) p = last rs c).
  { destruct rs; [reflexivity|]. change (last (c :: q :: rs) p) with (last (q :: rs) p). apply last_default. discriminate. }
  rewrite Hlast. reflexivity.
Qed.
Lemma stored_length : forall p c, (4 <= length (stored p c))%nat.
Proof. intros p c. unfold stored. rewrite app_length. unfold put32 at 1. rewrite put_be_length. lia. Qed.
Lemma nil_next : forall s t p slack, rel s t p -> (4 <= length slack)%nat -> qtreader_next_record slack s [] = RErr.
Proof.
  intros s t p slack R L. pose proof (nil_end s t p slack 0 R L) as E. cbn [read_loop] in E.
  destruct (qtreader_next_record slack s []) as [[[r s1] b1]| |f]; [discriminate|reflexivity|discriminate].
Qed.

Lemma loop_written : forall slack, (4 <= length slack)%nat -> forall k n rs p t s a, (length rs <= k)%nat ->
  rel s t p -> typed p -> shifts_ok p -> chain_frames p rs -> closes (p :: rs) -> complete (p :: rs) = true ->
  (q_insn p = 0 -> r_prefixed s = true) -> (length (all_bytes p rs) < n)%nat ->
  exists x, verbose_loop n slack s (all_bytes p rs) a = (x, QDone) /\ map user x = notes_from t p rs.
Proof.
  intros slack LS. induction k as [|k IH]; intros n rs p t s a LK R Tp Sp F C CP Z LN.
  all: destruct n as [|n]; [lia|]; cbn [verbose_loop].
  all: destruct rs as [|c rs]; [|try (cbn in LK; lia)].
  1,2: cbn [all_bytes notes_from] in *;
    destruct (successor_typed p) as [Ts Ss];
    pose proof (successor_pair _ C) as Pp; cbn [last] in Pp;
    destruct (next_exact s t p (successor p) slack [] R Tp Ts Sp Ss Pp Z) as (ra & dra & E & V & R' & P);
    cbv zeta in *; rewrite app_nil_r in E; rewrite E, P;
    cbn [complete] in CP; destruct (is_prefix_word (q_insn p)); [discriminate CP|]; cbn [negb];
    pose proof (stored_length p (successor p));
    (destruct n as [|n]; [lia|]); cbn [verbose_loop];
    rewrite (nil_next _ _ _ slack R' LS); eexists; (split; [reflexivity|]);
    cbn [map]; rewrite (notes_written s t p _ ra dra a R V); reflexivity.
  destruct F as (Tc & Sc & Zc & Fp & F). cbn [all_bytes notes_from] in *.
  assert (C' : closes (c :: rs)).
  { unfold closes in *. rewrite last_cons_rs in *. change (last (c :: rs) p) with (last (c :: rs) p) in C.
    rewrite (last_default (c :: rs) ltac:(discriminate) p zero_qrec), last_cons_rs in C. exact C. }
  destruct (next_exact s t p c slack (all_bytes c rs) R Tp Tc Sp Sc Fp Z) as (ra & dra & E & V & R' & P).
  cbv zeta in *. rewrite E, P. pose proof (stored_length p c) as L4. rewrite app_length in LN. cbn [length] in LK.
  assert (Zn : q_insn c = 0 -> r_prefixed (out_state s p c) = true) by (intros Ez; rewrite P; now apply Zc).
  cbn [complete] in CP.
  destruct (is_prefix_word (q_insn p)) eqn:PF; cbn [negb].
  - destruct rs as [|c2 rs].
    + cbn [all_bytes] in *. destruct (successor_typed c) as [Ts Ss].
      pose proof (successor_pair _ C') as Pp. cbn [last] in Pp.
      destruct (next_exact (out_state s p c) _ c (successor c) slack [] R' Tc Ts Sc Ss Pp Zn) as (ra2 & dra2 & E2 & V2 & R2 & P2).
      cbv zeta in *. rewrite app_nil_r in E2. rewrite E2. pose proof (stored_length c (successor c)).
      destruct n as [|n]; [lia|]. cbn [verbose_loop]. rewrite (nil_next _ _ _ slack R2 LS).
      eexists. split; [reflexivity|]. cbn [map]. rewrite (notes_written s t p c ra dra a R V). reflexivity.
    + destruct F as (Tc2 & Sc2 & Zc2 & Fp2 & F). cbn [all_bytes notes_from] in *.
      assert (C2 : closes (c2 :: rs)).
      { unfold closes in *. rewrite last_cons_rs in *.
        rewrite (last_default (c2 :: rs) ltac:(discriminate) c zero_qrec), last_cons_rs in C'. exact C'. }
      destruct (next_exact (out_state s p c) _ c c2 slack (all_bytes c2 rs) R' Tc Tc2 Sc Sc2 Fp2 Zn) as (ra2 & dra2 & E2 & V2 & R2 & P2).
      cbv zeta in *. rewrite E2. rewrite app_length in LN. cbn [length] in LK. 
      destruct (IH n rs c2 _ (out_state (out_state s p c) c c2) (r_next_addr (out_state (out_state s p c) c c2)) ltac:(lia) R2 Tc2 Sc2 F C2 CP
        (fun Ez => eq_trans P2 (Zc2 Ez)) ltac:(lia)) as (x & Ex & Ux).
      rewrite Ex. eexists. split; [reflexivity|]. cbn [map]. rewrite (notes_written s t p c ra dra a R V), Ux. reflexivity.
  - destruct (IH n rs c _ (out_state s p c) (r_next_addr (out_state s p c)) ltac:(lia) R' Tc Sc F C' CP Zn ltac:(lia)) as (x & Ex & Ux).
    rewrite Ex. eexists. split; [reflexivity|]. cbn [map]. rewrite (notes_written s t p c ra dra a R V), Ux. reflexivity.
Qed.

Lemma written_notes : forall magic rs slack, magic < 2 ^ 32 -> frames rs -> closes rs -> complete rs = true ->
  (4 <= length slack)%nat ->
  exists bytes x, write_trace magic rs = inr bytes /\ read_verbose slack bytes = (x, QDone)
    /\ map (fun v => (v_ea v, hd 0 (v_words v))) x = map (fun r => (q_insn_addr r, q_insn r)) (firsts rs)
    /\ map (fun v => flat_map seen (v_notes v)) x = trace_notes rs.
Proof.
  intros magic rs slack Hm F C CP L.
  destruct (written_listing magic rs slack Hm F C CP L) as (bytes & y & Ew & Er & H1 & _).
  destruct (verbose_bare slack bytes) as [B1 B2]. rewrite Er in B1, B2. cbn [fst snd] in B1, B2.
  exists bytes, (fst (read_verbose slack bytes)). split; [exact Ew|].
  split; [rewrite <- B2; destruct (read_verbose slack bytes); reflexivity|]. split.
  { rewrite <- H1, <- B1, map_map. apply map_ext. intros v. reflexivity. }
  destruct rs as [|r rs].
  - cbn [firsts map] in H1. assert (LN : length (fst (read_verbose slack bytes)) = 0%nat).
    { rewrite <- (map_length bare), B1. rewrite <- (map_length (fun l => (fst l, hd 0 (snd l)))), H1. reflexivity. }
    destruct (fst (read_verbose slack bytes)); [reflexivity|discriminate].
  - unfold write_trace in Ew.
    destruct (write_all_true (r :: rs) (qtwriter_open magic) (hdr_bytes magic r ++ chain_bytes r rs) (open_inv magic))
      as (st & Ew' & Eo & Hw & Em & Ep).
    { apply (emitted_frames magic), F. }
    rewrite Ew' in Ew. cbn [w_out qtwriter_open app] in Eo.
    assert (C' := C). unfold closes in C. rewrite last_cons_rs in C. cbv zeta in C.
    destruct (read_frames magic r rs [] (stored (last rs r) (successor (last rs r))) Hm F)
      as (_ & l0 & s00 & _ & _ & _ & Tl & Sl & _).
    rewrite (close_bytes st (last rs r) Hw Ep Sl C) in Ew. injection Ew as <-.
    destruct F as (T & S1 & Z & H & F). rewrite Eo, <- app_assoc, <- all_chain in *.
    destruct (header_back magic r (all_bytes r rs) Hm T S1 H) as (s0 & E0 & R0 & P0 & _).
    unfold read_verbose, qtreader_initialize. rewrite E0.
    destruct (loop_written slack L (length rs) (S (length (all_bytes r rs))) rs r (first_trans r) (set_info false false s0)
      (r_next_addr s0) (le_n _) R0 T S1 F C' CP ltac:(intros Ez; now destruct Z) (Nat.lt_succ_diag_r _)) as (x & Ex & Ux).
    rewrite Ex. exact Ux.
Qed.
