Require Import NArith ZArith List Bool Sorted Lia ZifyBool ZifyN ZifyNat.
Require Import Verif.Word Verif.Codec_Types Verif.Branch_Model Verif.Branch_Spec Verif.Branch_Proofs
  Verif.Storage_Model Verif.Storage_Spec Verif.Storage_Proofs Verif.Build_Model Verif.Build_Spec.
Import ListNotations.
Local Open Scope N_scope.

Lemma some_inj {A} (x y : A) : Some x = Some y -> x = y.
Proof. congruence. Qed.
Lemma ok_inj (x y : list qrec) : BOk x = BOk y -> x = y.
Proof. congruence. Qed.

(** Storage words *)
Lemma storage_cases w g : (forall r, g r < 2 ^ 64) ->
  match is_storage_insn w g with
  | SYes _ _ => accesses w = true /\ unsupported w = false
  | SNo => accesses w = false /\ unsupported w = false
  | SAbort => accesses w = false /\ unsupported w = true
  end.
Proof.
  intro Hg. rewrite storage_isa by exact Hg. unfold accesses, unsupported.
  assert (Hz : forall r : N, (fun _ : N => 0) r < 2 ^ 64) by (intro r; now apply N.ltb_lt).
  assert (H := kind_word w g (fun _ => 0) Hg Hz).
  rewrite (storage_isa w g Hg), (storage_isa w (fun _ => 0) Hz) in H. revert H.
  generalize (isa_answer w g) (isa_answer w (fun _ => 0)). intros [| |] [| |] H; unfold same_kind in H; try contradiction; split; reflexivity.
Qed.

Lemma AA_even a : a mod 4 = 0 -> isa_AA a = 0.
Proof. intro H. unfold isa_AA, fld. change (2 ^ (31 - 30)) with 2. change (2 ^ (30 - 30 + 1)) with 2. lia. Qed.

Lemma disp_mod4 w : (isa_I_disp w mod 4 = 0 /\ isa_B_disp w mod 4 = 0)%Z.
Proof. unfold isa_I_disp, isa_B_disp. split; rewrite Z.mul_comm; apply Z_mod_mult. Qed.

Lemma isa_target_size w a t : isa_branch_target w a = Some t -> t < 2 ^ 64.
Proof.
  unfold isa_branch_target, isa_target.
  destruct (isa_opcd w =? 18); [|destruct (isa_opcd w =? 16); [|discriminate]]; intro H; apply some_inj in H; subst t;
  match goal with |- Z.to_N (?x mod _) < _ => generalize x; intro z end;
  assert (Hz := Z.mod_pos_bound z (2 ^ 64) ltac:(reflexivity));
  apply N2Z.inj_lt; rewrite Z2N.id by lia; change (Z.of_N (2 ^ 64)) with (2 ^ 64)%Z; lia.
Qed.
Lemma mod4_of_mod64 z : (z mod 4 = 0)%Z -> Z.to_N (z mod 2 ^ 64) mod 4 = 0.
Proof.
  intro H. change (2 ^ 64)%Z with 18446744073709551616%Z. lia.
Qed.
Lemma isa_target_mod4 w a t : a mod 4 = 0 -> isa_branch_target w a = Some t -> t mod 4 = 0.
Proof.
  intros Ha. unfold isa_branch_target, isa_target. destruct (disp_mod4 w) as [H1 H2].
  destruct (isa_opcd w =? 18); [|destruct (isa_opcd w =? 16); [|discriminate]]; intro H; apply some_inj in H; subst t;
  apply mod4_of_mod64; destruct (isa_AA w =? 1); auto; revert H1 H2;
  generalize (isa_I_disp w) (isa_B_disp w); intros; lia.
Qed.

Lemma direct_dec w : direct w \/ ~ direct w.
Proof. unfold direct. lia. Qed.
Lemma has_target_direct w : has_branch_target w = true <-> direct w.
Proof. unfold has_branch_target, direct. rewrite iform_isa, bform_isa. lia. Qed.

(** Following an entry *)
Lemma retarget_ok w a t w' : w < 2 ^ 32 -> a < 2 ^ 64 -> t < 2 ^ 64 ->
  set_branch_target w a t = w' -> w' <> 0 ->
  (direct w -> retargeted w w' a t) /\ (~ direct w -> w' = w).
Proof.
  intros Hw Ha Ht E Hn. split.
  - intros [Ho|Ho]; unfold retargeted.
    + destruct (set_target_iform w a t Hw Ha Ht Ho ltac:(congruence)) as (H1 & H2 & H3 & H4 & H5).
      rewrite E in *. refine (conj H1 (conj H2 (conj H3 (conj H4 (conj H5 _))))). intro; congruence.
    + destruct (set_target_bform w a t Hw Ha Ht Ho ltac:(congruence)) as (H1 & H2 & H3 & H4 & H5 & H6 & H7).
      rewrite E in *. exact (conj H1 (conj H2 (conj H3 (conj H6 (conj H7 (fun _ => conj H4 H5)))))).
  - intro Hd. rewrite <- E. apply set_target_other; intro; apply Hd; unfold direct; auto.
Qed.

Definition dest (e : insn_map) (w a : N) : N :=
  match im_type e with
  | 0 => im_dyn e
  | 1 => (a + im_dyn e) mod 2 ^ 64
  | _ => match isa_branch_target w a with Some t => t | None => 0 end
  end.
Definition plain_ok (e : insn_map) (w : N) : Prop :=
  match im_type e with 0 | 1 => im_dyn e mod 4 = 0 | _ => isa_AA w = 0 end.

Lemma dest_ok e w a : a < 2 ^ 64 -> a mod 4 = 0 -> im_dyn e < 2 ^ 64 -> plain_ok e w ->
  dest e w a < 2 ^ 64 /\ dest e w a mod 4 = 0.
Proof.
  intros Ha H4 Hd Hp. unfold dest, plain_ok in *.
  assert (Hi : match isa_branch_target w a with Some t => t | None => 0 end < 2 ^ 64 /\
               match isa_branch_target w a with Some t => t | None => 0 end mod 4 = 0).
  { destruct (isa_branch_target w a) as [t|] eqn:E; [|split; reflexivity].
    split; [exact (isa_target_size _ _ _ E)|exact (isa_target_mod4 _ _ _ H4 E)]. }
  assert (Hr : im_dyn e mod 4 = 0 -> (a + im_dyn e) mod 2 ^ 64 < 2 ^ 64 /\ ((a + im_dyn e) mod 2 ^ 64) mod 4 = 0).
  { intro. change (2 ^ 64) with 18446744073709551616. lia. }
  destruct (im_type e) as [|p]; [auto|]. destruct p; auto.
Qed.

Lemma follow_ok e w a d w' : w < 2 ^ 32 -> a < 2 ^ 64 -> a mod 4 = 0 -> im_dyn e < 2 ^ 64 -> plain_ok e w ->
  follow e w a = inr (d, w') ->
  d = dest e w a /\ (direct w -> retargeted w w' a d) /\ (~ direct w -> w' = w).
Proof.
  intros Hw Ha H4 Hd Hp. unfold follow, BRANCH_TYPE_ABS, BRANCH_TYPE_REL, BRANCH_TYPE_INS.
  destruct (dest_ok e w a Ha H4 Hd Hp) as [Hs _].
  assert (Hgo : forall t, t = dest e w a ->
    (if set_branch_target w a t =? 0 then inl BadBranch else inr (t, set_branch_target w a t)) = inr (d, w') ->
    d = dest e w a /\ (direct w -> retargeted w w' a d) /\ (~ direct w -> w' = w)).
  { intros t Et. destruct (set_branch_target w a t =? 0) eqn:E0; [discriminate|]. intro H. injection H as H1 H2.
    apply N.eqb_neq in E0. subst t. split; [congruence|]. subst d.
    apply retarget_ok; auto; congruence. }
  destruct (im_type e =? 0) eqn:E0; [|destruct (im_type e =? 1) eqn:E1; [|destruct (im_type e =? 2) eqn:E2; [|discriminate]]].
  - apply N.eqb_eq in E0. apply Hgo. unfold dest. now rewrite E0.
  - apply N.eqb_eq in E1. apply Hgo. unfold dest. rewrite E1. reflexivity.
  - apply N.eqb_eq in E2. destruct (has_branch_target w) eqn:Eh; [|discriminate]. apply Hgo.
    apply has_target_direct in Eh. unfold plain_ok in Hp. rewrite E2 in Hp.
    unfold dest. rewrite E2. now rewrite (branch_target_relative w a Ha Hp (AA_even a H4) Eh).
Qed.

(** Looking entries up *)
Lemma entry_later im p : Forall (fun e => p < im_text e) im -> entry_at im p = None.
Proof.
  induction 1 as [|e im He _ IH]; [reflexivity|]. unfold entry_at in *. cbn [find].
  replace (im_text e =? p) with false by (symmetry; apply N.eqb_neq; lia). exact IH.
Qed.
Lemma entry_skip e im p : im_text e <> p -> entry_at (e :: im) p = entry_at im p.
Proof. intro H. unfold entry_at. cbn [find]. apply N.eqb_neq in H. now rewrite H. Qed.
Lemma entry_here e im : entry_at (e :: im) (im_text e) = Some e.
Proof. unfold entry_at. cbn [find]. now rewrite N.eqb_refl. Qed.
Lemma ordered_tail e im : ordered (e :: im) -> ordered im /\ Forall (fun e' => im_text e < im_text e') im.
Proof. intros [H1 H2]. inversion H1; inversion H2; subst. split; [split; auto|auto]. Qed.
(** The next entry is not at [p]: nothing is. *)
Lemma entry_none e im t : ordered (e :: im) -> t mod 4 = 0 -> t < im_text e -> im_text e <> t + 4 ->
  entry_at (e :: im) (t + 4) = None.
Proof.
  intros Ho Ht Hlt Hne. assert (Ho' := Ho). destruct Ho' as [_ Hf]. inversion Hf as [|? ? [_ Hm] _]; subst.
  destruct (ordered_tail _ _ Ho) as [_ Hl].
  assert (t + 4 < im_text e) by lia.
  apply entry_later. constructor; [auto|]. rewrite Forall_forall in *. intros x Hx. specialize (Hl x Hx). lia.
Qed.

Lemma faithful_ext im im' lm lm' pos w a n r :
  entry_at im pos = entry_at im' pos -> incl lm lm' ->
  faithful im lm pos w a n r -> faithful im' lm' pos w a n r.
Proof.
  intros He Hl [H1 H2 H3 H4 H5 H6 H7 H8 H9]. rewrite He in *. constructor; auto.
Qed.
Lemma traced_ext im im' lm lm' : incl lm lm' -> forall ws pos a rs,
  (forall p, pos < p -> entry_at im p = entry_at im' p) ->
  traced im lm pos a ws rs -> traced im' lm' pos a ws rs.
Proof.
  intros Hl. induction ws as [|w ws IH]; intros pos a [|r rs] He; cbn [traced]; auto.
  assert (Hn : successor_addr im w (pos + 4) a = successor_addr im' w (pos + 4) a)
    by (unfold successor_addr; rewrite He by lia; reflexivity).
  rewrite <- Hn. intros [H1 H2]. split.
  - revert H1. apply faithful_ext; auto. apply He. lia.
  - revert H2. apply IH. intros p Hp. apply He. lia.
Qed.
Lemma relative_ext im im' : forall ws pos, (forall p, pos < p -> entry_at im p = entry_at im' p) ->
  relative_only im pos ws -> relative_only im' pos ws.
Proof.
  induction ws as [|w ws IH]; intros pos He; cbn [relative_only]; auto.
  rewrite <- (He (pos + 4)) by lia. intros [H1 H2]. split; auto. apply (IH (pos + 4)); auto.
  intros p Hp. apply He. lia.
Qed.

Lemma record_faithful im lm pos w a next w' data :
  w < 2 ^ 32 ->
  (data = None -> accesses w = false) ->
  (forall d, data = Some d -> accesses w = true /\ In (mk_lm pos d) lm) ->
  (entry_at im pos = None -> w' = w) -> (~ direct w -> w' = w) ->
  (entry_at im pos <> None -> direct w -> retargeted w w' a next) ->
  faithful im lm pos w a next (record w' a data (is_branch w) (is_conditional_branch w)).
Proof.
  intros Hw Hn Hs H1 H2 H3. constructor; cbn [record q_insn q_insn_addr q_data_addr_valid q_data_addr q_branch q_cond
    q_insn_ra_valid q_insn_ps_valid q_data_ra_valid q_data_ps_valid q_ginsn_ps_valid q_gdata_ps_valid q_radix_insn q_radix_data]; auto.
  - destruct data as [d|]; [destruct (Hs d eq_refl); auto|now rewrite Hn].
  - destruct data as [d|]; [intro; now apply Hs|rewrite Hn by auto; discriminate].
  - now apply is_branch_spec.
  - now apply cond_spec.
  - repeat split.
Qed.

Lemma bcons_ok r b rs : bcons r b = BOk rs -> exists rs', b = BOk rs' /\ rs = r :: rs'.
Proof. destruct b; cbn; try discriminate. intro H. apply ok_inj in H. subst. eauto. Qed.

Lemma loop_ok g : (forall r, g r < 2 ^ 64) -> forall ws t a im lm rs,
  Forall (fun w => w < 2 ^ 32) ws -> t mod 4 = 0 -> a < 2 ^ 64 -> a mod 4 = 0 ->
  ordered im -> sized_im im -> Forall (fun e => t < im_text e) im ->
  relative_only im t ws ->
  build_loop g ws t a im lm = BOk rs -> traced im lm t a ws rs.
Proof.
  intro Hg. induction ws as [|w ws IH]; intros t a im lm rs Hw Ht Ha Ha4 Ho Hz Hl Hr; cbn [build_loop traced].
  - intro H. apply ok_inj in H. subst. exact I.
  - inversion Hw as [|? ? Hww Hws]; subst. destruct Hr as [Hr1 Hr2].
    (* one word, its data address known *)
    assert (Hstep : forall data lm', incl lm' lm ->
      (data = None -> accesses w = false) ->
      (forall d, data = Some d -> accesses w = true /\ In (mk_lm (t + 4) d) lm) ->
      match im with
      | e :: im' =>
          if im_text e =? t + 4 then
            match follow e w a with
            | inl x => BExit x
            | inr (d', w') =>
                bcons (record w' a data (is_branch w) (is_conditional_branch w)) (build_loop g ws (t + 4) d' im' lm')
            end
          else bcons (record w a data (is_branch w) (is_conditional_branch w)) (build_loop g ws (t + 4) (add64 a 4) im lm')
      | [] => bcons (record w a data (is_branch w) (is_conditional_branch w)) (build_loop g ws (t + 4) (add64 a 4) im lm')
      end = BOk rs ->
      match rs with
      | [] => False
      | r :: rs => faithful im lm (t + 4) w a (successor_addr im w (t + 4) a) r /\
                   traced im lm (t + 4) (successor_addr im w (t + 4) a) ws rs
      end).
    { intros data lm' Hincl Hdn Hds.
      assert (Hseq : entry_at im (t + 4) = None ->
        bcons (record w a data (is_branch w) (is_conditional_branch w)) (build_loop g ws (t + 4) (add64 a 4) im lm') = BOk rs ->
        Forall (fun e => t + 4 < im_text e) im ->
        match rs with
        | [] => False
        | r :: rs => faithful im lm (t + 4) w a (successor_addr im w (t + 4) a) r /\
                     traced im lm (t + 4) (successor_addr im w (t + 4) a) ws rs
        end).
      { intros He H Hl4. apply bcons_ok in H as (rs' & Hb & ->).
        assert (Hn : successor_addr im w (t + 4) a = add64 a 4) by (unfold successor_addr; rewrite He; reflexivity).
        rewrite Hn. split.
        - apply record_faithful; auto; rewrite He; congruence.
        - apply traced_ext with im lm'; auto. revert Hb. apply IH; auto.
          + lia.
          + apply N.mod_lt. discriminate.
          + unfold add64, w64. lia. }
      destruct im as [|e im'].
      - intro H. apply Hseq; auto.
      - destruct (im_text e =? t + 4) eqn:Ee.
        + apply N.eqb_eq in Ee. destruct (follow e w a) as [x|[d' w']] eqn:Ef; [discriminate|].
          intro H. apply bcons_ok in H as (rs' & Hb & ->).
          assert (Hhere : entry_at (e :: im') (t + 4) = Some e) by (rewrite <- Ee; apply entry_here).
          rewrite Hhere in Hr1. inversion Hz as [|? ? Hze Hz']; subst.
          destruct (follow_ok e w a d' w' Hww Ha Ha4 Hze Hr1 Ef) as (Hd & Hdir & Hoth).
          destruct (dest_ok e w a Ha Ha4 Hze Hr1) as [Hds' Hd4].
          assert (Hn : successor_addr (e :: im') w (t + 4) a = d') by (unfold successor_addr; rewrite Hhere; symmetry; exact Hd).
          rewrite Hn. destruct (ordered_tail _ _ Ho) as [Ho' Hl']. split.
          * apply record_faithful; auto. rewrite Hhere. discriminate.
          * assert (Hsk : forall p, t + 4 < p -> entry_at im' p = entry_at (e :: im') p).
            { intros p Hp. symmetry. apply entry_skip. lia. }
            apply traced_ext with im' lm'; auto. revert Hb. apply IH; auto.
            -- lia.
            -- congruence.
            -- congruence.
            -- rewrite Ee in Hl'. exact Hl'.
            -- revert Hr2. apply relative_ext. intros p Hp. symmetry. now apply Hsk.
        + apply N.eqb_neq in Ee. inversion Hl as [|? ? Hle Hl']; subst.
          intro H. apply Hseq; auto.
          * now apply entry_none.
          * assert (t + 4 < im_text e).
            { destruct Ho as [_ Hf]. inversion Hf as [|? ? [_ Hm] _]; subst. lia. }
            destruct (ordered_tail _ _ Ho) as [_ Hll]. constructor; [auto|].
            rewrite Forall_forall in *. intros x Hx. specialize (Hll x Hx). lia. }
    assert (Hc := storage_cases w g Hg).
    destruct (is_storage_insn w g) as [|addr size|]; [| |discriminate].
    + apply (Hstep None lm); [apply incl_refl|intros; tauto|discriminate].
    + destruct lm as [|m lm']; [discriminate|]. destruct (lm_text m =? t + 4) eqn:Em; [|discriminate].
      apply N.eqb_eq in Em. apply (Hstep (Some (lm_addr m)) lm'); [intros x Hx; now right|discriminate|].
      intros d Hd. injection Hd as <-. split; [tauto|]. left. destruct m. cbn in *. now subst.
Qed.

Lemma build_start g text im lm rest a :
  starts_at im rest a -> (forall e, In e rest -> 0 < im_text e) ->
  build g text im lm = build_loop g text 0 a rest lm.
Proof.
  intros H Hr. destruct H as [-> |(b & ->)]; cbn [build im_text im_type im_dyn N.eqb negb orb BRANCH_TYPE_ABS].
  - destruct rest as [|e2 r]; [reflexivity|].
    replace (im_text e2 =? 0) with false; [reflexivity|]. symmetry. apply N.eqb_neq.
    specialize (Hr e2 ltac:(now left)). lia.
  - reflexivity.
Qed.
Lemma ordered_pos im : ordered im -> forall e, In e im -> 0 < im_text e.
Proof. intros [_ H] e He. rewrite Forall_forall in H. now apply H. Qed.

Lemma build_records g text im rest a lm rs : (forall r, g r < 2 ^ 64) ->
  Forall (fun w => w < 2 ^ 32) text -> a < 2 ^ 64 -> a mod 4 = 0 ->
  starts_at im rest a -> ordered rest -> sized_im rest -> relative_only rest 0 text ->
  build g text im lm = BOk rs -> traced rest lm 0 a text rs.
Proof.
  intros Hg Hw Ha Ha4 Hs Ho Hz Hr. rewrite (build_start g text im lm rest a Hs (ordered_pos _ Ho)).
  apply loop_ok; auto. rewrite Forall_forall. apply ordered_pos; auto.
Qed.
