(** Exact round trip: proof of C01. *)
Require Import Arith NArith List Bool Lia ZifyBool ZifyN ZifyNat.
Require Import Verif.Word Verif.Codec_Types Verif.Writer_Model Verif.Branch_Model Verif.Reader_Model
  Verif.Codec_Spec Verif.Codec_Proofs Verif.Codec_Proofs2 Verif.Codec_Proofs3 Verif.Codec_Proofs4.
Import ListNotations.
Local Open Scope N_scope.

Definition agrees (ty : N) (t : trans) (p : qrec) : Prop :=
  itrans p = (t_rpn t, t_ps t, t_gps t, t_walk t) /\ t_type t = ty.

Lemma walk_own ty q :
  (single q = true -> rx_type q = ty) -> walk_of (rx_type q) q = walk_of ty q.
Proof.
  intros H. destruct (single q) eqn:E; [now rewrite H|]. apply walk_of_type, E.
Qed.
Lemma walked_single q : single q = true -> walked q = true.
Proof.
  unfold single, walked. rewrite !andb_true_iff. intros [-> E]. apply N.eqb_eq in E. rewrite E. auto.
Qed.

Lemma rpn_exact ra ps ea : ra_exact ra ps ea -> rpn_of ra ps = ra / 2 ^ dflt ps 16.
Proof. intros [_ H]. unfold rpn_of. now apply N.mod_small. Qed.
Lemma ra_of_exact ra ps ea :
  ra < 2 ^ 64 -> ra_exact ra ps ea -> ra_of (ra / 2 ^ dflt ps 16) ps ea = ra.
Proof.
  intros L [H _]. unfold ra_of. cbv zeta. rewrite <- H. set (s := 2 ^ dflt ps 16) in *.
  assert (s <> 0) by (apply N.pow_nonzero; discriminate).
  pose proof (N.div_mod ra s H0) as D. pose proof (N.mod_lt ra s H0).
  rewrite N.mod_small; lia.
Qed.

Lemma agrees_first r :
  exact (if single (q_radix_insn r) then rx_type (q_radix_insn r) else 0) r ->
  agrees (if single (q_radix_insn r) then rx_type (q_radix_insn r) else 0) (first_trans r) r.
Proof.
  intros (E1 & _ & E3 & _ & E5 & _). unfold agrees, itrans, first_trans. cbv zeta.
  cbn [t_rpn t_ps t_gps t_walk t_type].
  assert (Ty : (if q_insn_ra_valid r && single (q_radix_insn r) then rx_type (q_radix_insn r) else 0)
             = (if single (q_radix_insn r) then rx_type (q_radix_insn r) else 0)).
  { destruct (single (q_radix_insn r)) eqn:S; rewrite ?andb_true_r, ?andb_false_r; [|reflexivity].
    rewrite E3; [reflexivity|]. now apply walked_single. }
  rewrite Ty. split; [|reflexivity]. f_equal; [f_equal; f_equal|].
  - destruct (q_insn_ra_valid r) eqn:V; [|reflexivity]. cbn [optb]. f_equal. symmetry.
    apply (rpn_exact _ _ _ (E1 eq_refl)).
  - rewrite (walk_own _ _ E5). destruct (q_insn_ra_valid r) eqn:V; [reflexivity|].
    apply walk_of_unwalked. destruct (walked (q_radix_insn r)); [|reflexivity]. now discriminate E3.
Qed.

Lemma agrees_next ty t p c :
  agrees ty t p -> exact ty c -> exact_pair p c -> agrees ty (next_trans t p c) c.
Proof.
  intros [A1 A2] (E1 & _ & E3 & _ & E5 & _) (P1 & P2 & P3 & P4 & P5 & _ & P7 & _).
  unfold agrees, next_trans. destruct (discontinuity p c) eqn:D.
  2: { rewrite (P1 eq_refl). auto. }
  cbn [t_rpn t_ps t_gps t_walk t_type]. split; [|exact A2].
  unfold itrans in *. cbv zeta in *. injection A1 as A1a A1b A1c A1d.
  f_equal; [f_equal; [f_equal|]|].
  - rewrite <- A1a. destruct (q_insn_ra_valid c) eqn:V; cbn [optb por].
    + f_equal. symmetry. apply (rpn_exact _ _ _ (E1 eq_refl)).
    + destruct (q_insn_ra_valid p); [|reflexivity]. now discriminate P2.
  - rewrite <- A1b. destruct (q_insn_ps_valid c) eqn:V; cbn [optb por]; [reflexivity|].
    destruct (q_insn_ps_valid p); [|reflexivity]. now discriminate P3.
  - rewrite <- A1c. destruct (q_ginsn_ps_valid c) eqn:V; cbn [optb por].
    + f_equal. destruct (swapped p c); [|reflexivity]. symmetry. now apply P7.
    + destruct (q_ginsn_ps_valid p); [|reflexivity]. now discriminate P4.
  - rewrite <- A1d, A2, (walk_own _ _ E5).
    destruct (walked (q_radix_insn c)) eqn:W.
    + rewrite (E3 eq_refl). pose proof (walk_of_walked ty _ W).
      destruct (walk_of ty (q_radix_insn c)); [reflexivity|congruence].
    + rewrite (walk_of_unwalked ty _ W).
      assert (Wp : walked (q_radix_insn p) = false).
      { destruct (walked (q_radix_insn p)); [|reflexivity]. now discriminate P5. }
      rewrite (walk_of_unwalked _ _ Wp). destruct (q_insn_ra_valid c); reflexivity.
Qed.

Lemma single_kind q : storable q -> single q = true -> rx_type q = GUEST_REAL \/ rx_type q = HOST_RADIX.
Proof.
  unfold storable, single. rewrite andb_true_iff, negb_true_iff. intros H [A B].
  apply N.eqb_neq in A. apply N.eqb_eq in B. now apply H.
Qed.

Lemma one_exact ty t p c :
  typed p -> agrees ty t p -> exact ty p ->
  (discontinuity p c = true -> q_branch p = true) ->
  (swapped p c = true -> q_data_ps p = q_ginsn_ps c) ->
  (q_data_ra_valid p = true -> storable (q_radix_data p)) ->
  (single (q_radix_data p) = true -> rx_type (q_radix_data p) = GUEST_REAL ->
   discontinuity p c = true -> single (q_radix_insn c) = true ->
   rx_type (q_radix_insn c) = GUEST_REAL) ->
  expected_one t p c = own_view p (q_insn_addr c) (discontinuity p c).
Proof.
  intros (_ & _ & T1 & _ & T2 & _) [A1 A2] (E1 & E2 & _ & E4 & _ & E6 & E7) HB HS HD HK.
  unfold itrans in A1. cbv zeta in A1. injection A1 as A1a A1b A1c A1d.
  unfold expected_one, own_view. cbv zeta.
  rewrite <- A1a, <- A1b, <- A1c, <- A1d.
  assert (DPS : optb (q_data_ps_valid p) (if swapped p c then q_ginsn_ps c else q_data_ps p)
                = optb (q_data_ps_valid p) (q_data_ps p)).
  { destruct (swapped p c); [now rewrite HS|reflexivity]. }
  rewrite DPS.
  f_equal.
  - destruct (q_insn_ra_valid p); [|reflexivity]. cbn [optb]. f_equal.
    apply ra_of_exact; auto.
  - destruct (q_data_ra_valid p); [|reflexivity]. cbn [optb]. f_equal.
    rewrite (rpn_exact _ _ _ (E2 eq_refl)).
    assert (Ed : dflt (optb (q_data_addr_valid p) (q_data_addr p)) 0 = if q_data_addr_valid p then q_data_addr p else 0).
    { destruct (q_data_addr_valid p); reflexivity. }
    rewrite Ed. apply ra_of_exact; auto.
  - destruct (q_data_ra_valid p) eqn:V.
    + symmetry. apply walk_own. intros S. unfold data_kind.
      destruct (single_kind _ (HD eq_refl) S) as [K|K]; rewrite K.
      * cbn [N.eqb GUEST_REAL Pos.eqb andb].
        destruct (discontinuity p c) eqn:D; [|reflexivity]. cbn [andb].
        destruct (q_insn_ra_valid c && single (q_radix_insn c)) eqn:S2; [|reflexivity].
        apply andb_true_iff in S2 as [_ S2]. rewrite HK by auto. reflexivity.
      * reflexivity.
    + symmetry. apply walk_of_unwalked. destruct (walked (q_radix_data p)); [|reflexivity]. now discriminate E4.
  - destruct (q_branch p) eqn:B; cbn [orb]; [reflexivity|].
    destruct (discontinuity p c); [now discriminate HB|].
    destruct (is_conditional_branch (q_insn p)); [now discriminate E7|reflexivity].
  - destruct (q_branch p) eqn:B; cbn [orb andb].
    + destruct (q_cond p); [|reflexivity]. destruct (E6 eq_refl) as [_ ->]. reflexivity.
    + destruct (discontinuity p c); [now discriminate HB|].
      destruct (is_conditional_branch (q_insn p)); [now discriminate E7|].
      destruct (q_cond p); [|reflexivity]. destruct (E6 eq_refl). discriminate.
Qed.

Lemma expected_exact ty rs : forall t p,
  typed p -> agrees ty t p -> exact ty p -> exact_from ty p rs -> chain_frames p rs ->
  (q_data_ra_valid (last rs p) = true -> storable (q_radix_data (last rs p))) ->
  expected_from t p rs = own_views p rs.
Proof.
  induction rs as [|c rs IH]; intros t p T A E X F C; cbn [expected_from own_views].
  - f_equal. rewrite (one_exact ty); auto; rewrite ?successor_disc; try discriminate.
    + reflexivity.
    + unfold swapped. now rewrite successor_disc.
  - destruct X as (Xc & Xp & X). destruct F as (Tc & Sc & Zc & Fp & F).
    assert (Xp' := Xp). destruct Xp' as (P1 & P2 & P3 & P4 & P5 & P6 & P7 & P8).
    destruct (pair_walk_cond _ _ Fp) as (_ & _ & _ & Sd & _).
    rewrite (one_exact ty); auto. f_equal. apply IH; auto.
    + eapply agrees_next; eauto.
    + destruct rs; [exact C|]. rewrite (last_default (q :: rs) ltac:(discriminate) c p). exact C.
Qed.

Lemma exact_round_trip magic rs slack :
  magic < 2 ^ 32 -> frames rs -> closes rs -> recoverable rs -> (4 <= length slack)%nat ->
  exists bytes,
    write_trace magic rs = inr bytes /\
    map view_of (fst (read_trace false false slack bytes)) = as_written rs /\
    snd (read_trace false false slack bytes) = EndFalse.
Proof.
  intros Hm F C X L. destruct (round_trip magic rs slack Hm F C L) as (b & E & V & En & _).
  exists b. split; [exact E|]. split; [|exact En]. rewrite V.
  destruct rs as [|r rs]; [reflexivity|]. cbn [expected as_written].
  destruct F as (T & S & Z & H & F). destruct X as [X1 X2].
  unfold closes in C. rewrite last_cons_rs in C. cbv zeta in C.
  eapply expected_exact; eauto. now apply agrees_first.
Qed.
