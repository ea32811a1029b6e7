(** Copying a trace: the copy has the same bytes. *)
Require Import Arith NArith List Bool Lia ZifyBool ZifyN ZifyNat.
Require Import Verif.Word Verif.Codec_Types Verif.Writer_Model Verif.Writer_Spec Verif.Writer_Proofs
  Verif.Branch_Model Verif.Reader_Model Verif.Reader_Spec Verif.Reader_Proofs Verif.Reader_Proofs3
  Verif.Codec_Spec Verif.Codec_Proofs Verif.Codec_Proofs2 Verif.Codec_Proofs3 Verif.Codec_Proofs4
  Verif.Codec_Proofs5 Verif.Copy_Model Verif.Copy_Proofs.
Import ListNotations.
Local Open Scope N_scope.

(** ** Records that look the same are stored the same *)
Definition looks (q q' : qrec) : Prop := own_view q 0 false = own_view q' 0 false.

Lemma optb_eq {A} b b' (x x' : A) : optb b x = optb b' x' -> b' = b /\ (b = true -> x' = x).
Proof. destruct b, b'; cbn; intros E; try discriminate E; split; auto; intros H; congruence. Qed.

Lemma looks_fields q q' : looks q q' ->
  q_insn q' = q_insn q /\ q_insn_addr q' = q_insn_addr q /\
  optb (q_insn_ra_valid q) (q_insn_ra q) = optb (q_insn_ra_valid q') (q_insn_ra q') /\
  optb (q_insn_ps_valid q) (q_insn_ps q) = optb (q_insn_ps_valid q') (q_insn_ps q') /\
  optb (q_ginsn_ps_valid q) (q_ginsn_ps q) = optb (q_ginsn_ps_valid q') (q_ginsn_ps q') /\
  walk_of (rx_type (q_radix_insn q)) (q_radix_insn q) = walk_of (rx_type (q_radix_insn q')) (q_radix_insn q') /\
  optb (q_data_addr_valid q) (q_data_addr q) = optb (q_data_addr_valid q') (q_data_addr q') /\
  optb (q_data_ra_valid q) (q_data_ra q) = optb (q_data_ra_valid q') (q_data_ra q') /\
  optb (q_data_ps_valid q) (q_data_ps q) = optb (q_data_ps_valid q') (q_data_ps q') /\
  optb (q_gdata_ps_valid q) (q_gdata_ps q) = optb (q_gdata_ps_valid q') (q_gdata_ps q') /\
  walk_of (rx_type (q_radix_data q)) (q_radix_data q) = walk_of (rx_type (q_radix_data q')) (q_radix_data q') /\
  q_branch q' = q_branch q /\ q_cond q' = q_cond q.
Proof.
  unfold looks, own_view. intros E.
  repeat split.
  - symmetry. exact (f_equal v_insn E).
  - symmetry. exact (f_equal v_addr E).
  - exact (f_equal v_ra E).
  - exact (f_equal v_ps E).
  - exact (f_equal v_gps E).
  - exact (f_equal v_walk E).
  - exact (f_equal v_daddr E).
  - exact (f_equal v_dra E).
  - exact (f_equal v_dps E).
  - exact (f_equal v_gdps E).
  - exact (f_equal v_dwalk E).
  - symmetry. exact (f_equal v_branch E).
  - symmetry. exact (f_equal v_cond E).
Qed.

Lemma put_rpn_same ra v ps ps' : (v = true -> ps' = ps) -> put_rpn ra v ps' = put_rpn ra v ps.
Proof. intros H. unfold put_rpn, pshift_of. destruct v; [now rewrite H|reflexivity]. Qed.
Lemma when_same (b : bool) x y : (b = true -> x = y) -> when b x = when b y.
Proof. destruct b; cbn; auto. Qed.

Lemma typed_shape r : typed_radix r -> shape r.
Proof.
  intros (A & B & C & _ & D & _). repeat split; try assumption.
  rewrite Forall_forall in *. intros x Hx. now apply B.
Qed.

Lemma store_same p p' c c' :
  looks p p' -> looks c c' -> typed p -> typed c -> pair_frames p c ->
  sound (q_radix_data p') -> sound (q_radix_insn c') ->
  store_record p' c' = store_record p c.
Proof.
  intros Lp Lc Tp Tc (PD & PI & _) Sd Si.
  apply looks_fields in Lp as (Ep1 & Ep2 & _ & _ & _ & _ & Ep3 & Ep4 & Ep5 & Ep6 & Ep7 & Ep8 & Ep9).
  apply looks_fields in Lc as (_ & Ec2 & Ec3 & Ec4 & Ec5 & Ec6 & _).
  apply optb_eq in Ep3 as [Ep3 Vp3], Ep4 as [Ep4 Vp4], Ep5 as [Ep5 Vp5], Ep6 as [Ep6 Vp6],
    Ec3 as [Ec3 Vc3], Ec4 as [Ec4 Vc4], Ec5 as [Ec5 Vc5].
  rewrite disc_eq in PI.
  assert (IC : iar_change p' c' = iar_change p c) by (unfold iar_change; now rewrite Ep2, Ec2).
  assert (WD : q_data_ra_valid p = true -> _) by
    (intros H; exact (walk_same _ _ (typed_shape _ (proj2 (proj2 (proj2 (proj2 (proj2 (proj2 Tp))))))) (PD H) Sd Ep7)).
  assert (WI : iar_change p c && q_insn_ra_valid c = true -> _) by
    (intros H; exact (walk_same _ _ (typed_shape _ (proj1 (proj2 (proj2 (proj2 (proj2 (proj2 Tc))))))) (PI H) Si Ec6)).
  rewrite (andb_comm (iar_change p c)) in WI. clear PD PI.
  unfold store_record, rec_flags, rec_flags2, rec_flags3, have_flags3, data_walk, insn_walk, rec_is_branch, term_code.
  rewrite IC, Ep1, Ep3, Ep4, Ep5, Ep6, Ep8, Ep9, Ec2, Ec3, Ec4, Ec5.
  rewrite (put_rpn_same (q_data_ra p') _ _ _ Vp5), (put_rpn_same (q_insn_ra c') _ _ _ Vc4).
  assert (W1 : has_ptes (q_radix_data p') && q_data_ra_valid p = has_ptes (q_radix_data p) && q_data_ra_valid p).
  { destruct (q_data_ra_valid p); [|now rewrite !andb_false_r]. destruct (WD eq_refl) as (K & _).
    unfold has_ptes. now rewrite K. }
  assert (W2 : has_ptes (q_radix_insn c') && (q_insn_ra_valid c && iar_change p c)
             = has_ptes (q_radix_insn c) && (q_insn_ra_valid c && iar_change p c)).
  { destruct (q_insn_ra_valid c && iar_change p c); [|now rewrite !andb_false_r]. destruct (WI eq_refl) as (K & _).
    unfold has_ptes. now rewrite K. }
  rewrite (andb_comm (q_data_ra_valid p) (has_ptes (q_radix_data p'))), W1.
  rewrite (andb_comm (q_insn_ra_valid c && iar_change p c) (has_ptes (q_radix_insn c'))), W2.
  rewrite (andb_comm (q_data_ra_valid p) (has_ptes (q_radix_data p))).
  rewrite (andb_comm (q_insn_ra_valid c && iar_change p c) (has_ptes (q_radix_insn c))).
  clear W1 W2.
  assert (Q1 : (if q_data_ra_valid p then walk_assert (q_radix_data p') else true)
             = (if q_data_ra_valid p then walk_assert (q_radix_data p) else true)).
  { destruct (q_data_ra_valid p); [|reflexivity]. now destruct (WD eq_refl) as (_ & _ & -> & _). }
  assert (Q2 : (if q_insn_ra_valid c && iar_change p c then walk_assert (q_radix_insn c') else true)
             = (if q_insn_ra_valid c && iar_change p c then walk_assert (q_radix_insn c) else true)).
  { destruct (q_insn_ra_valid c && iar_change p c); [|reflexivity]. now destruct (WI eq_refl) as (_ & _ & -> & _). }
  rewrite Q1, Q2. clear Q1 Q2.
  assert (R1 : (if has_ptes (q_radix_data p) && q_data_ra_valid p then
       match kind (q_radix_data p') with KSingle => N.shiftl (single_mode (q_radix_data p')) SH_GUEST_DATA | _ => 0 end else 0)
     = (if has_ptes (q_radix_data p) && q_data_ra_valid p then
       match kind (q_radix_data p) with KSingle => N.shiftl (single_mode (q_radix_data p)) SH_GUEST_DATA | _ => 0 end else 0)).
  { destruct (q_data_ra_valid p); [|now rewrite andb_false_r]. destruct (WD eq_refl) as (K & _ & _ & _ & M).
    rewrite K. destruct (kind (q_radix_data p)); try reflexivity. now rewrite M. }
  assert (R2 : (if has_ptes (q_radix_insn c) && (q_insn_ra_valid c && iar_change p c) then
       match kind (q_radix_insn c') with
       | KSingle => N.lor (N.shiftl MODE_NOT_DEFINED SH_GUEST_INSN) (N.shiftl (single_mode (q_radix_insn c')) SH_GUEST_DATA)
       | _ => 0 end else 0)
     = (if has_ptes (q_radix_insn c) && (q_insn_ra_valid c && iar_change p c) then
       match kind (q_radix_insn c) with
       | KSingle => N.lor (N.shiftl MODE_NOT_DEFINED SH_GUEST_INSN) (N.shiftl (single_mode (q_radix_insn c)) SH_GUEST_DATA)
       | _ => 0 end else 0)).
  { destruct (q_insn_ra_valid c && iar_change p c); [|now rewrite andb_false_r]. destruct (WI eq_refl) as (K & _ & _ & _ & M).
    rewrite K. destruct (kind (q_radix_insn c)); try reflexivity. now rewrite M. }
  rewrite R1, R2. clear R1 R2.
  rewrite (when_same (q_data_addr_valid p) (eok (put64 (q_data_addr p'))) (eok (put64 (q_data_addr p))))
    by (intros H; now rewrite Vp3).
  rewrite (when_same (q_data_ra_valid p) (put_rpn (q_data_ra p') _ _) (put_rpn (q_data_ra p) (q_data_ps_valid p) (q_data_ps p)))
    by (intros H; now rewrite Vp4).
  rewrite (when_same (has_ptes (q_radix_data p) && q_data_ra_valid p) (eok (emit_walk (q_radix_data p'))) (eok (emit_walk (q_radix_data p))))
    by (intros H; apply andb_true_iff in H as [_ H]; now destruct (WD H) as (_ & -> & _)).
  rewrite (when_same (has_ptes (q_radix_insn c) && (q_insn_ra_valid c && iar_change p c)) (eok (emit_walk (q_radix_insn c'))) (eok (emit_walk (q_radix_insn c))))
    by (intros H; apply andb_true_iff in H as [_ H]; now destruct (WI H) as (_ & -> & _)).
  rewrite (when_same (q_insn_ra_valid c && iar_change p c) (put_rpn (q_insn_ra c') _ _) (put_rpn (q_insn_ra c) (q_insn_ps_valid c) (q_insn_ps c)))
    by (intros H; apply andb_true_iff in H as [H _]; now rewrite Vc3).
  rewrite (when_same (q_insn_ps_valid c && iar_change p c) (eok (put8 (u8 (q_insn_ps c')))) (eok (put8 (u8 (q_insn_ps c)))))
    by (intros H; apply andb_true_iff in H as [H _]; now rewrite Vc4).
  rewrite (when_same (q_ginsn_ps_valid c && iar_change p c) (eok (put8 (u8 (q_ginsn_ps c')))) (eok (put8 (u8 (q_ginsn_ps c)))))
    by (intros H; apply andb_true_iff in H as [H _]; now rewrite Vc5).
  rewrite (when_same (q_data_ps_valid p) (eok (put8 (u8 (q_data_ps p')))) (eok (put8 (u8 (q_data_ps p)))))
    by (intros H; now rewrite Vp5).
  rewrite (when_same (q_gdata_ps_valid p) (eok (put8 (u8 (q_gdata_ps p')))) (eok (put8 (u8 (q_gdata_ps p)))))
    by (intros H; now rewrite Vp6).
  reflexivity.
Qed.

Lemma header_same m r r' :
  looks r r' -> typed r -> storable (q_radix_insn r) -> sound (q_radix_insn r') ->
  (rx_nr_ptes (q_radix_insn r') = 0 <-> rx_nr_ptes (q_radix_insn r) = 0) ->
  write_header m r' = write_header m r.
Proof.
  intros L T St Sd Z.
  apply looks_fields in L as (_ & E2 & E3 & E4 & E5 & E6 & _).
  apply optb_eq in E3 as [E3 V3], E4 as [E4 V4], E5 as [E5 V5].
  destruct (walk_same _ _ (typed_shape _ (proj1 (proj2 (proj2 (proj2 (proj2 (proj2 T))))))) St Sd E6)
    as (K & W & A & _ & M).
  unfold write_header, hdr_flags, hdr_flags3, has_ptes.
  assert (Zb : (rx_nr_ptes (q_radix_insn r') =? 0) = (rx_nr_ptes (q_radix_insn r) =? 0)).
  { destruct (N.eqb_spec (rx_nr_ptes (q_radix_insn r')) 0), (N.eqb_spec (rx_nr_ptes (q_radix_insn r)) 0);
      try reflexivity; exfalso; tauto. }
  rewrite Zb, K, W, A, E2, E3, E4, E5, (put_rpn_same (q_insn_ra r') _ _ _ V4).
  rewrite (when_same (q_insn_ra_valid r) (put_rpn (q_insn_ra r') _ _) (put_rpn (q_insn_ra r) (q_insn_ps_valid r) (q_insn_ps r)))
    by (intros H; now rewrite V3).
  rewrite (when_same (q_insn_ps_valid r) (eok (put8 (u8 (q_insn_ps r')))) (eok (put8 (u8 (q_insn_ps r)))))
    by (intros H; now rewrite V4).
  rewrite (when_same (q_ginsn_ps_valid r) (eok (put8 (u8 (q_ginsn_ps r')))) (eok (put8 (u8 (q_ginsn_ps r)))))
    by (intros H; now rewrite V5).
  destruct (kind (q_radix_insn r)); try reflexivity. now rewrite M.
Qed.
