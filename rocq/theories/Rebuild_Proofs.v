Require Import NArith ZArith List Bool Sorted Lia ZifyBool ZifyN ZifyNat.
Require Import Verif.Word Verif.Codec_Types Verif.Branch_Model Verif.Branch_Spec Verif.Branch_Proofs
  Verif.Storage_Model Verif.Storage_Spec Verif.Storage_Proofs Verif.Build_Model Verif.Build_Spec Verif.Build_Proofs
  Verif.Build_Proofs2 Verif.Rebuild_Model Verif.Rebuild_Spec.
Import ListNotations.
Local Open Scope N_scope.

Ltac flds := unfold isa_opcd, isa_AA, isa_LK, isa_BO, isa_BI, fld in *;
  change (2 ^ (31 - 5)) with 67108864 in *; change (2 ^ (5 - 0 + 1)) with 64 in *;
  change (2 ^ (31 - 10)) with 2097152 in *; change (2 ^ (10 - 6 + 1)) with 32 in *;
  change (2 ^ (31 - 15)) with 65536 in *; change (2 ^ (15 - 11 + 1)) with 32 in *;
  change (2 ^ (31 - 29)) with 4 in *; change (2 ^ (29 - 6 + 1)) with 16777216 in *;
  change (2 ^ (29 - 16 + 1)) with 16384 in *;
  change (2 ^ (31 - 30)) with 2 in *; change (2 ^ (30 - 30 + 1)) with 2 in *;
  change (2 ^ (31 - 31)) with 1 in *; change (2 ^ (31 - 31 + 1)) with 2 in *;
  change (2 ^ 32) with 4294967296 in *.

Lemma iword w : w < 2 ^ 32 -> w = isa_opcd w * 67108864 + fld w 6 29 * 4 + isa_AA w * 2 + isa_LK w.
Proof. intro H. flds. lia. Qed.
Lemma bword w : w < 2 ^ 32 ->
  w = isa_opcd w * 67108864 + isa_BO w * 2097152 + isa_BI w * 65536 + fld w 16 29 * 4 + isa_AA w * 2 + isa_LK w.
Proof. intro H. flds. lia. Qed.
Lemma sext_inj k x y : 0 < k -> x < 2 ^ k -> y < 2 ^ k -> sext k x = sext k y -> x = y.
Proof.
  intros Hk Hx Hy. unfold sext.
  assert (E3 : (2 ^ Z.of_N k = Z.of_N (2 ^ k))%Z) by (rewrite N2Z.inj_pow; reflexivity). rewrite E3.
  assert (E : 2 ^ k = 2 * 2 ^ (k - 1)) by (rewrite <- N.pow_succ_r'; f_equal; lia). rewrite E in *.
  generalize dependent (2 ^ (k - 1)). intros n. destruct (x <? n) eqn:E1, (y <? n) eqn:E2; lia.
Qed.

(** A word is determined by its fields and its target. *)
Lemma word_unique w w' a t : w < 2 ^ 32 -> w' < 2 ^ 32 -> a < 2 ^ 64 -> direct w ->
  isa_opcd w' = isa_opcd w -> isa_AA w' = isa_AA w -> isa_LK w' = isa_LK w ->
  (isa_opcd w = 16 -> isa_BO w' = isa_BO w /\ isa_BI w' = isa_BI w) ->
  isa_branch_target w a = Some t -> isa_branch_target w' a = Some t -> w' = w.
Proof.
  intros Hw Hw' Ha Hd Ho HA HL HB Ht Ht'.
  destruct (direct_disp w w' a t Ha Ho HA Ht') as [H1 H2].
  destruct (direct_disp w w a t Ha eq_refl eq_refl Ht) as [H3 H4].
  destruct Hd as [E|E].
  - assert (Hf : fld w' 6 29 = fld w 6 29).
    { specialize (H1 E). specialize (H3 E). unfold isa_I_disp in *.
      apply (sext_inj 24); [reflexivity|apply fld_lt|apply fld_lt|]. lia. }
    rewrite (iword w Hw), (iword w' Hw'), Ho, HA, HL, Hf. reflexivity.
  - assert (Hf : fld w' 16 29 = fld w 16 29).
    { specialize (H2 E). specialize (H4 E). unfold isa_B_disp in *.
      apply (sext_inj 14); [reflexivity|apply fld_lt|apply fld_lt|]. lia. }
    destruct (HB E) as [HB1 HB2].
    rewrite (bword w Hw), (bword w' Hw'), Ho, HA, HL, HB1, HB2, Hf. reflexivity.
Qed.

Lemma opcd_bits w : isa_opcd w = bits w 0 6.
Proof. unfold isa_opcd, fld, bits. reflexivity. Qed.
Lemma direct_no_access w : direct w -> accesses w = false /\ unsupported w = false.
Proof.
  intro Hd. assert (Hz : forall r : N, (fun _ : N => 0) r < 2 ^ 64) by (intro r; now apply N.ltb_lt).
  assert (E : is_storage_insn w (fun _ => 0) = SNo).
  { unfold is_storage_insn, PPC_OPC. rewrite field_bits. unfold direct in Hd. rewrite !opcd_bits in Hd.
    destruct Hd as [-> | ->]; reflexivity. }
  assert (H := storage_cases w (fun _ => 0) Hz). rewrite E in H. exact H.
Qed.
Opaque accesses unsupported isa_answer is_storage_insn set_branch_target is_branch is_conditional_branch.
Lemma assembled_access w w' : assembled w w' -> accesses w' = accesses w /\ unsupported w' = unsupported w.
Proof.
  intros (_ & H1 & H2). destruct (direct_dec w) as [Hd|Hd]; [|now rewrite (H1 Hd)].
  assert (Hd' : direct w') by (unfold direct in *; destruct (H2 Hd) as (-> & _); exact Hd).
  destruct (direct_no_access _ Hd) as [-> ->]. exact (direct_no_access _ Hd').
Qed.
Lemma assembled_trans w w' w'' a t : assembled w w' -> retargeted w' w'' a t -> direct w -> assembled w w''.
Proof.
  intros (H0 & H1 & H2) (R1 & R2 & R3 & R4 & R5 & R6) Hd. split; [auto|]. split; [tauto|]. intros _.
  destruct (H2 Hd) as (A1 & A2 & A3 & A4). rewrite R3, R4, R5, A1, A2, A3.
  split; [reflexivity|]. split; [reflexivity|]. split; [reflexivity|].
  intros E. destruct (R6 ltac:(congruence)) as [B1 B2]. destruct (A4 E) as [B3 B4]. split; congruence.
Qed.

Lemma abs_head pos last rs e im : abs_entries pos last rs = e :: im -> pos <= im_text e.
Proof.
  revert pos last. induction rs as [|r rs IH]; intros pos last; cbn [abs_entries]; [discriminate|].
  destruct (add64 last 4 =? d_ea r); cbn [app].
  - intro H. apply IH in H. lia.
  - intro H. injection H as <- _. cbn. lia.
Qed.

Lemma rebuild_loop g : (forall r, g r < 2 ^ 64) -> forall rs r text t,
  executed (r :: rs) -> Forall2 assembled (map d_insn (r :: rs)) text ->
  exists qs, build_loop g text t (d_ea r) (abs_entries (t + 4) (d_ea r) rs) (ldst_entries t (r :: rs)) = BOk qs /\
    rebuilt (r :: rs) qs.
Proof.
  intro Hg. induction rs as [|r' rs IH]; intros r text t He Ht.
  - cbn [map] in Ht. inversion Ht as [|w w' ? tx Hw Hnil]; subst. inversion Hnil; subst.
    destruct He as ((S1 & S2 & S3 & S4 & S5) & _ & _).
    destruct (assembled_access _ _ Hw) as [Ha Hu]. assert (Hc := storage_cases w' g Hg).
    cbn [abs_entries ldst_entries build_loop bcons].
    assert (Hres : forall data, data = d_data r -> exists qs, BOk [record w' (d_ea r) data (is_branch w') (is_conditional_branch w')] = BOk qs /\ rebuilt [r] qs).
    { intros data ->. eexists. split; [reflexivity|]. cbn [rebuilt]. split; [|exact I].
      unfold same_record. cbn [record q_insn_addr q_data_addr_valid q_data_addr q_insn].
      split; [reflexivity|]. split; [destruct (d_data r); reflexivity|]. split; [|exact Hw].
      intros [[]|Hd]. destruct Hw as (_ & Hw & _). exact (Hw Hd). }
    destruct (is_storage_insn w' g); destruct Hc as [Hc1 Hc2].
    + rewrite Ha, S5 in Hc1. apply Hres. destruct (d_data r); [discriminate Hc1|reflexivity].
    + rewrite Ha, S5 in Hc1. destruct (d_data r) as [d|] eqn:Ed; [|discriminate Hc1]. cbn [app]. cbn [lm_text lm_addr]. rewrite N.eqb_refl.
      apply Hres. reflexivity.
    + rewrite Hu, S4 in Hc2. discriminate Hc2.
  - cbn [map] in Ht. inversion Ht as [|w w' ? tx Hw Htx]; subst.
    change (d_insn r' :: map d_insn rs) with (map d_insn (r' :: rs)) in Htx.
    assert (He' := He). destruct He as ((S1 & S2 & S3 & S4 & S5) & Hj & Hex).
    assert (S3' : d_ea r' < 2 ^ 64) by (exact (proj1 (proj2 (proj2 (proj1 Hex))))).
    destruct (assembled_access _ _ Hw) as [Ha Hu]. assert (Hc := storage_cases w' g Hg).
    assert (Hw' : w' < 2 ^ 32) by (exact (proj1 Hw)).
    destruct (IH r' tx (t + 4) Hex Htx) as (qs & Eq & Hq).
    change (ldst_entries t (r :: r' :: rs)) with
      ((match d_data r with Some d => [mk_lm (t + 4) d] | None => [] end) ++ ldst_entries (t + 4) (r' :: rs)).
    set (L := ldst_entries (t + 4) (r' :: rs)) in *.
    (* the word, given its data address *)
    assert (Hstep : forall data, data = d_data r -> exists qs,
      (let rest insn' daddr' im' :=
         bcons (record insn' (d_ea r) data (is_branch w') (is_conditional_branch w')) (build_loop g tx (t + 4) daddr' im' L) in
       match abs_entries (t + 4) (d_ea r) (r' :: rs) with
       | e :: im' =>
           if im_text e =? t + 4 then
             match follow e w' (d_ea r) with
             | inl x => BExit x
             | inr (daddr', insn') => rest insn' daddr' im'
             end
           else rest w' (add64 (d_ea r) 4) (abs_entries (t + 4) (d_ea r) (r' :: rs))
       | [] => rest w' (add64 (d_ea r) 4) (abs_entries (t + 4) (d_ea r) (r' :: rs))
       end) = BOk qs /\ rebuilt (r :: r' :: rs) qs).
    { intros data ->. cbv zeta.
      assert (Hfin : forall w'' , assembled (d_insn r) w'' ->
        (jumps r r' \/ ~ direct (d_insn r) -> w'' = d_insn r) ->
        exists qs, bcons (record w'' (d_ea r) (d_data r) (is_branch w') (is_conditional_branch w'))
           (build_loop g tx (t + 4) (d_ea r') (abs_entries (t + 4 + 4) (d_ea r') rs) L) = BOk qs /\
          rebuilt (r :: r' :: rs) qs).
      { intros w'' Hw'' Hsame. rewrite Eq. cbn [bcons]. eexists. split; [reflexivity|].
        change (rebuilt (r :: r' :: rs) (record w'' (d_ea r) (d_data r) (is_branch w') (is_conditional_branch w') :: qs))
          with (same_record (jumps r r') r (record w'' (d_ea r) (d_data r) (is_branch w') (is_conditional_branch w')) /\ rebuilt (r' :: rs) qs).
        split; [|exact Hq]. unfold same_record. cbn [record q_insn_addr q_data_addr_valid q_data_addr q_insn].
        split; [reflexivity|]. split; [destruct (d_data r); reflexivity|]. split; [exact Hsame|exact Hw'']. }
      change (abs_entries (t + 4) (d_ea r) (r' :: rs)) with
        ((if add64 (d_ea r) 4 =? d_ea r' then [] else [mk_im (t + 4) BRANCH_TYPE_ABS (d_ea r')]) ++ abs_entries (t + 4 + 4) (d_ea r') rs).
      destruct (add64 (d_ea r) 4 =? d_ea r') eqn:Eseq.
      - apply N.eqb_eq in Eseq. cbn [app].
        assert (Hnj : ~ jumps r r') by (unfold jumps; intro H; apply H; symmetry; exact Eseq).
        assert (Hsame : jumps r r' \/ ~ direct (d_insn r) -> w' = d_insn r).
        { intros [H|H]; [elim (Hnj H)|]. destruct Hw as (_ & Hw & _). exact (Hw H). }
        destruct (Hfin w' Hw Hsame) as (qs' & E1 & E2). exists qs'. split; [|exact E2].
        rewrite Eseq.
        destruct (abs_entries (t + 4 + 4) (d_ea r') rs) as [|e im] eqn:Ea; [exact E1|].
        assert (Hh := abs_head _ _ _ _ _ Ea).
        replace (im_text e =? t + 4) with false by (symmetry; apply N.eqb_neq; lia). exact E1.
      - apply N.eqb_neq in Eseq. cbn [app]. cbn [im_text]. rewrite N.eqb_refl.
        assert (Hj' : jumps r r') by (unfold jumps; intro H; apply Eseq; symmetry; exact H).
        unfold follow. cbn [im_type im_dyn]. change (BRANCH_TYPE_ABS =? BRANCH_TYPE_ABS) with true. cbv iota.
        set (w'' := set_branch_target w' (d_ea r) (d_ea r')).
        destruct (direct_dec (d_insn r)) as [Hd|Hd].
        + assert (Hd' : direct w').
          { destruct Hw as (_ & _ & Hw). unfold direct in *. destruct (Hw Hd) as (-> & _). exact Hd. }
          assert (Hf : fits w' (d_ea r) (d_ea r')).
          { split; [intros _; exists (d_insn r)|].
            - destruct Hw as (_ & _ & Hw). destruct (Hw Hd) as (A1 & A2 & _). repeat split; auto.
            - intro E0. rewrite E0 in Hd'. destruct Hd' as [D|D]; vm_compute in D; discriminate. }
          assert (Hn : w'' <> 0) by (apply fits_succeeds; auto).
          apply N.eqb_neq in Hn. rewrite Hn. apply N.eqb_neq in Hn.
          destruct (retarget_ok w' (d_ea r) (d_ea r') w'' Hw' S3 S3' eq_refl Hn) as [Hr _].
          specialize (Hr Hd'). assert (Has := assembled_trans _ _ _ _ _ Hw Hr Hd).
          apply Hfin; [exact Has|]. intros _. destruct Has as (X1 & _ & X2). destruct (X2 Hd) as (Y1 & Y2 & Y3 & Y4).
          apply (word_unique _ _ (d_ea r) (d_ea r')); auto. destruct Hr as (_ & Hr & _). exact Hr.
        + assert (Ew : w' = d_insn r) by (destruct Hw as (_ & Hw & _); exact (Hw Hd)).
          assert (Ew2 : w'' = d_insn r).
          { unfold w''. rewrite Ew. apply set_target_other; intro; apply Hd; unfold direct; auto. }
          rewrite Ew2. replace (d_insn r =? 0) with false by (symmetry; apply N.eqb_neq; auto).
          apply Hfin; [|auto]. split; [auto|]. split; [auto|tauto]. }
    cbn [build_loop].
    destruct (is_storage_insn w' g); destruct Hc as [Hc1 Hc2].
    + rewrite Ha, S5 in Hc1. destruct (d_data r) eqn:Ed; [discriminate Hc1|]. apply (Hstep None). reflexivity.
    + rewrite Ha, S5 in Hc1. destruct (d_data r) as [d|] eqn:Ed; [|discriminate Hc1]. cbn [app]. cbn [lm_text lm_addr]. rewrite N.eqb_refl.
      apply (Hstep (Some d)). reflexivity.
    + rewrite Hu, S4 in Hc2. discriminate Hc2.
Qed.

Lemma rebuild_ok g rs text : (forall r, g r < 2 ^ 64) -> rs <> [] ->
  executed rs -> Forall2 assembled (map d_insn rs) text ->
  exists qs, build g text (insnmap_of rs) (ldstmap_of rs) = BOk qs /\ rebuilt rs qs.
Proof.
  intros Hg Hne He Ht. destruct rs as [|r rs]; [congruence|].
  destruct (rebuild_loop g Hg rs r text 0 He Ht) as (qs & E & Hq). exists qs. split; [|exact Hq].
  rewrite <- E. unfold insnmap_of, ldstmap_of. apply build_start; [now left|].
  intros e Hin. revert Hin. change (0 + 4) with 4. generalize (d_ea r).
  assert (Hgen : forall rs pos n, 0 < pos -> In e (abs_entries pos n rs) -> 0 < im_text e).
  { induction rs0 as [|x rs0 IH]; intros pos n Hp; cbn [abs_entries]; [intros []|].
    intro H. apply in_app_or in H as [H|H].
    - destruct (add64 n 4 =? d_ea x); [destruct H|]. destruct H as [<-|[]]. exact Hp.
    - apply IH in H; [exact H|lia]. }
  intro n. now apply Hgen.
Qed.
