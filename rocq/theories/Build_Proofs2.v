Require Import NArith ZArith List Bool Sorted Lia ZifyBool ZifyN ZifyNat.
Require Import Verif.Word Verif.Codec_Types Verif.Branch_Model Verif.Branch_Spec Verif.Branch_Proofs
  Verif.Storage_Model Verif.Storage_Spec Verif.Storage_Proofs Verif.Build_Model Verif.Build_Spec Verif.Build_Proofs.
Import ListNotations.
Local Open Scope N_scope.

(** Displacements are determined by target and address. *)
Lemma sext_range k x : 0 < k -> x < 2 ^ k -> (- 2 ^ Z.of_N (k - 1) <= sext k x < 2 ^ Z.of_N (k - 1))%Z.
Proof.
  intros Hk Hx. unfold sext.
  assert (E : 2 ^ k = 2 * 2 ^ (k - 1)) by (rewrite <- N.pow_succ_r'; f_equal; lia).
  assert (E2 : (2 ^ Z.of_N (k - 1) = Z.of_N (2 ^ (k - 1)))%Z) by (rewrite N2Z.inj_pow; reflexivity).
  assert (E3 : (2 ^ Z.of_N k = Z.of_N (2 ^ k))%Z) by (rewrite N2Z.inj_pow; reflexivity).
  rewrite E2, E3, E in *. generalize dependent (2 ^ (k - 1)). intros. destruct (x <? n) eqn:Ex; lia.
Qed.
Lemma fld_lt w i j : fld w i j < 2 ^ (j - i + 1).
Proof. unfold fld. apply N.mod_lt. apply N.pow_nonzero. discriminate. Qed.
Lemma I_range w : (-33554432 <= isa_I_disp w < 33554432)%Z.
Proof.
  unfold isa_I_disp. assert (H := sext_range 24 (fld w 6 29) eq_refl (fld_lt w 6 29)).
  change (2 ^ Z.of_N (24 - 1))%Z with 8388608%Z in H. lia.
Qed.
Lemma B_range w : (-32768 <= isa_B_disp w < 32768)%Z.
Proof.
  unfold isa_B_disp. assert (H := sext_range 14 (fld w 16 29) eq_refl (fld_lt w 16 29)).
  change (2 ^ Z.of_N (14 - 1))%Z with 8192%Z in H. lia.
Qed.

Lemma s64_of_small d : (-33554432 <= d < 33554432)%Z -> s64 (Z.to_N (d mod 2 ^ 64)) = d.
Proof.
  intro H. change (2 ^ 64)%Z with 18446744073709551616%Z.
  assert (E : (d mod 18446744073709551616 = if d <? 0 then d + 18446744073709551616 else d)%Z).
  { destruct (d <? 0)%Z eqn:Ed.
    - symmetry. apply Z.mod_unique with (-1)%Z; lia.
    - apply Z.mod_small. lia. }
  rewrite E. clear E. unfold s64, w64.
  rewrite N.mod_small by (destruct (d <? 0)%Z eqn:Ed; lia).
  destruct (d <? 0)%Z eqn:Ed.
  - replace (Z.to_N (d + 18446744073709551616) <? 9223372036854775808) with false by (symmetry; apply N.ltb_ge; lia). lia.
  - replace (Z.to_N d <? 9223372036854775808) with true by (symmetry; apply N.ltb_lt; lia). lia.
Qed.

Lemma disp_of w w' a t d : a < 2 ^ 64 -> isa_AA w' = isa_AA w ->
  (-33554432 <= d < 33554432)%Z -> t = isa_target w' a d -> disp a t w = d.
Proof.
  intros Ha HA Hd ->. unfold disp, isa_target. rewrite HA. destruct (isa_AA w =? 1).
  - now apply s64_of_small.
  - rewrite <- (s64_of_small d Hd) at 2. f_equal. f_equal. 
    change (2 ^ 64)%Z with 18446744073709551616%Z in *. change (2 ^ 64) with 18446744073709551616 in *. lia.
Qed.

Lemma direct_disp w w' a t : a < 2 ^ 64 -> isa_opcd w' = isa_opcd w -> isa_AA w' = isa_AA w ->
  isa_branch_target w' a = Some t ->
  (isa_opcd w = 18 -> disp a t w = isa_I_disp w') /\ (isa_opcd w = 16 -> disp a t w = isa_B_disp w').
Proof.
  intros Ha Ho HA Ht. split; intro E; unfold isa_branch_target in Ht; rewrite Ho, E in Ht;
    cbn [N.eqb Pos.eqb] in Ht; apply some_inj in Ht.
  - apply disp_of with w'; auto. apply I_range.
  - apply disp_of with w'; auto. assert (H := B_range w'). lia.
Qed.

Lemma fits_succeeds w a t : w < 2 ^ 32 -> a < 2 ^ 64 -> t < 2 ^ 64 -> fits w a t ->
  set_branch_target w a t <> 0.
Proof.
  intros Hw Ha Ht [Hf Hn]. destruct (direct_dec w) as [Hd|Hd].
  - destruct (Hf Hd) as (w' & Hw' & Ho & HA & Htg).
    apply set_target_succeeds_iff; auto.
    destruct (direct_disp w w' a t Ha Ho HA Htg) as [H1 H2]. destruct (disp_mod4 w') as [H3 H4].
    destruct Hd as [E|E]; rewrite E; cbn [N.eqb Pos.eqb].
    + rewrite (H1 E). split; [apply I_range|exact H3].
    + rewrite (H2 E). split; [apply B_range|exact H4].
  - rewrite set_target_other; [exact Hn| |]; intro; apply Hd; unfold direct; auto.
Qed.

Lemma follow_succeeds e w a : w < 2 ^ 32 -> a < 2 ^ 64 -> a mod 4 = 0 -> im_dyn e < 2 ^ 64 -> plain_ok e w ->
  (im_type e = 0 \/ im_type e = 1 \/ im_type e = 2 /\ direct w) -> fits w a (dest e w a) ->
  exists w', follow e w a = inr (dest e w a, w').
Proof.
  intros Hw Ha H4 Hd Hp Ht Hf. destruct (dest_ok e w a Ha H4 Hd Hp) as [Hs _].
  assert (Hn := fits_succeeds w a _ Hw Ha Hs Hf).
  unfold follow, BRANCH_TYPE_ABS, BRANCH_TYPE_REL, BRANCH_TYPE_INS.
  assert (Hgo : forall t, t = dest e w a ->
    exists w', (if set_branch_target w a t =? 0 then inl BadBranch else inr (t, set_branch_target w a t)) = inr (dest e w a, w')).
  { intros t ->. apply N.eqb_neq in Hn. rewrite Hn. eauto. }
  destruct Ht as [E|[E|[E Hdir]]]; rewrite E; cbn [N.eqb Pos.eqb].
  - apply Hgo. unfold dest. now rewrite E.
  - apply Hgo. unfold dest. rewrite E. reflexivity.
  - replace (has_branch_target w) with true by (symmetry; now apply has_target_direct). apply Hgo.
    unfold plain_ok in Hp. rewrite E in Hp. unfold dest. rewrite E.
    now rewrite (branch_target_relative w a Ha Hp (AA_even a H4) Hdir).
Qed.

Lemma buildable_ext im im' : forall ws lm pos a, (forall p, pos < p -> entry_at im p = entry_at im' p) ->
  buildable im lm pos a ws -> buildable im' lm pos a ws.
Proof.
  induction ws as [|w ws IH]; intros lm pos a He; cbn [buildable]; auto.
  assert (Hn : successor_addr im w (pos + 4) a = successor_addr im' w (pos + 4) a)
    by (unfold successor_addr; rewrite He by lia; reflexivity).
  rewrite <- Hn, <- (He (pos + 4)) by lia.
  assert (He' : forall p, pos + 4 < p -> entry_at im p = entry_at im' p) by (intros; apply He; lia).
  intros (H1 & H2 & H3). split; auto. split; auto.
  destruct (accesses w); [|now apply IH]. destruct lm as [|m lm]; auto. destruct H3 as [H3 H4]. split; auto.
Qed.

Lemma bcons_some r b : (exists rs, b = BOk rs) -> exists rs, bcons r b = BOk rs.
Proof. intros [rs ->]. eexists. reflexivity. Qed.

Lemma loop_accepts g : (forall r, g r < 2 ^ 64) -> forall ws t a im lm,
  Forall (fun w => w < 2 ^ 32) ws -> t mod 4 = 0 -> a < 2 ^ 64 -> a mod 4 = 0 ->
  ordered im -> sized_im im -> Forall (fun e => t < im_text e) im ->
  relative_only im t ws -> buildable im lm t a ws ->
  exists rs, build_loop g ws t a im lm = BOk rs.
Proof.
  intro Hg. induction ws as [|w ws IH]; intros t a im lm Hw Ht Ha Ha4 Ho Hz Hl Hr Hb; cbn [build_loop].
  - eauto.
  - inversion Hw as [|? ? Hww Hws]; subst. destruct Hr as [Hr1 Hr2]. cbn [buildable] in Hb.
    destruct Hb as (Hu & Hent & Hrest).
    assert (Hstep : forall data lm', buildable im lm' (t + 4) (successor_addr im w (t + 4) a) ws -> exists rs,
      match im with
      | e :: im' =>
          if im_text e =? t + 4 then
            match follow e w a with
            | inl x => BExit x
            | inr (d', w') =>
                bcons (record w' a data (is_branch w) (is_conditional_branch w)) (build_loop g ws (t + 4) d' im' lm')
            end
          else bcons (record w a data (is_branch w) (is_conditional_branch w)) (build_loop g ws (t + 4) (add64 a 4) im lm')
      | [] => bcons (record w a data (is_branch w) (is_conditional_branch w)) (build_loop g ws (t + 4) (add64 a 4) im lm')
      end = BOk rs).
    { intros data lm' Hb'.
      assert (Hseq : entry_at im (t + 4) = None -> Forall (fun e => t + 4 < im_text e) im -> exists rs,
        bcons (record w a data (is_branch w) (is_conditional_branch w)) (build_loop g ws (t + 4) (add64 a 4) im lm') = BOk rs).
      { intros He Hl4. apply bcons_some. apply IH; auto.
        - lia.
        - apply N.mod_lt. discriminate.
        - unfold add64, w64. lia.
        - revert Hb'. unfold successor_addr. rewrite He. auto. }
      destruct im as [|e im'].
      - apply Hseq; auto.
      - destruct (im_text e =? t + 4) eqn:Ee.
        + apply N.eqb_eq in Ee.
          assert (Hhere : entry_at (e :: im') (t + 4) = Some e) by (rewrite <- Ee; apply entry_here).
          rewrite Hhere in Hr1, Hent. inversion Hz as [|? ? Hze Hz']; subst.
          assert (Hn : successor_addr (e :: im') w (t + 4) a = dest e w a) by (unfold successor_addr; rewrite Hhere; reflexivity).
          rewrite Hn in *. destruct Hent as [Hty Hfit].
          destruct (follow_succeeds e w a Hww Ha Ha4 Hze Hr1 Hty Hfit) as (w' & Ef). rewrite Ef.
          destruct (dest_ok e w a Ha Ha4 Hze Hr1) as [Hds' Hd4].
          destruct (ordered_tail _ _ Ho) as [Ho' Hl'].
          assert (Hsk : forall p, t + 4 < p -> entry_at (e :: im') p = entry_at im' p).
          { intros p Hp. apply entry_skip. lia. }
          apply bcons_some. apply IH; auto.
          * lia.
          * rewrite Ee in Hl'. exact Hl'.
          * revert Hr2. now apply relative_ext.
          * revert Hb'. now apply buildable_ext.
        + apply N.eqb_neq in Ee. inversion Hl as [|? ? Hle Hl']; subst. apply Hseq.
          * now apply entry_none.
          * assert (t + 4 < im_text e).
            { destruct Ho as [_ Hf]. inversion Hf as [|? ? [_ Hm] _]; subst. lia. }
            destruct (ordered_tail _ _ Ho) as [_ Hll]. constructor; [auto|].
            rewrite Forall_forall in *. intros x Hx. specialize (Hll x Hx). lia. }
    assert (Hc := storage_cases w g Hg).
    destruct (is_storage_insn w g) as [|addr size|]; destruct Hc as [Hc1 Hc2]; rewrite Hc1 in Hrest.
    + apply (Hstep None lm). exact Hrest.
    + destruct lm as [|m lm']; [destruct Hrest|]. destruct Hrest as [Em Hrest]. rewrite Em, N.eqb_refl.
      apply (Hstep (Some (lm_addr m)) lm'). exact Hrest.
    + congruence.
Qed.

Lemma build_accepts g text im rest a lm : (forall r, g r < 2 ^ 64) ->
  Forall (fun w => w < 2 ^ 32) text -> a < 2 ^ 64 -> a mod 4 = 0 ->
  starts_at im rest a -> ordered rest -> sized_im rest -> relative_only rest 0 text ->
  buildable rest lm 0 a text -> exists rs, build g text im lm = BOk rs.
Proof.
  intros Hg Hw Ha Ha4 Hs Ho Hz Hr Hb. rewrite (build_start g text im lm rest a Hs (ordered_pos _ Ho)).
  apply loop_accepts; auto. rewrite Forall_forall. apply ordered_pos; auto.
Qed.
