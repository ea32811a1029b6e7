(** Proofs for C56: one instruction. *)
Require Import NArith ZArith List Bool Lia.
Require Import ZifyBool ZifyN ZifyNat.
Require Import Verif.Word Verif.Codec_Types Verif.HtmBits_Model Verif.HtmBits_Spec Verif.HtmBits_Proofs.
Require Import Verif.Branch_Model Verif.Branch_Spec Verif.Branch_Proofs.
Require Import Verif.Pwc_Model Verif.Pwc_Spec Verif.Pwc_Proofs Verif.Xlate_Model Verif.Xlate_Spec Verif.Xlate_Proofs Verif.Xlate_Full.
Require Import Verif.Htm_Model Verif.Trace_Spec Verif.Trace_Proofs Verif.Trace8_Proofs Verif.Trace8_Proofs2 Verif.Trace8_Proofs3.
Require Import Verif.Trace10_Spec Verif.Trace10_Proofs Verif.Trace10_Proofs2 Verif.Trace10_Proofs3.
Require Verif.Tlb_Model Verif.Tlb_Spec Verif.Tlb_Proofs Verif.Bb_Model Verif.Bb_Spec Verif.Bb_Proofs.
Import ListNotations.
Local Open Scope N_scope.

Definition XI (tb : option Resume_Spec.tables) (H : list Resume_Spec.request) (h : list eop) (x : aux) : Prop :=
  xs_partial (ax_x x) = [] /\ e_inv h (xs_erat (ax_x x)) /\ Forall hist_ok h
  /\ knowing tb (xs_pwc (ax_x x)) H.
Definition cur_of (x : aux) : trans := (ax_radix x, ax_hps x, ax_gps x).
Definition with_x (st : xst) (x : aux) : aux := mk_aux (ax_real x) (ax_radix x) (ax_hps x) (ax_gps x) (ax_rpt x) st.
Definition with_cur (t : trans) (x : aux) : aux :=
  let '(rec, h, g) := t in mk_aux (ax_real x) rec h g (ax_rpt x) (ax_x x).
Lemma msr_bits : forall i, let m := decode_msr (snd (t_msr i)) in
  r_hv m = t_hv i /\ r_ir m = t_ir i /\ r_dr m = t_dr i.
Proof. intros i. unfold t_hv, t_ir, t_dr, decode_msr. cbn [r_hv r_ir r_dr]. rewrite !bit_spec by lia. repeat split. Qed.

Section SIDES.
  Variable bad : bool.
  Variable nwords : nat.
  Variable J : qrec -> Prop.
  Variable tb : option Resume_Spec.tables.
  Hypothesis HT : tables_good tb.
  Notation R10 := (R10 bad nwords J).

  Lemma run_decode : forall hist h d y m reloc A r ws a x s B (k : option trans -> H B) Q,
    R10 ws a x s -> xl_ok d y -> XI tb hist h x -> given_ok tb hist (r_hv m) reloc (Some y) A r ->
    A < 2 ^ 64 -> r < 2 ^ 64 -> r mod 4096 = 0 ->
    (forall s' st, R10 ws a (with_x st x) s' ->
       XI tb (asked y A :: hist) (fst (translate h (r_hv m) reloc (Some y) A r)) (with_x st x) ->
       tr_ok (fw_radix (y_walk y), host_shift (y_walk y), guest_shift (y_walk y)) ->
       wp (k (snd (translate h (r_hv m) reloc (Some y) A r))) Q s') ->
    wp (hbind (x_decode (xlate_of y) m reloc A r) k) Q s.
  Proof.
    intros hist h d y m reloc A r ws a x s B k Q RS OK (P & I & HO & KN) G HA HR AL K.
    pose proof G as (_ & RL & _). subst reloc.
    assert (AX : h_x s = ax_x x) by (destruct RS as [_ <-]; reflexivity).
    unfold x_decode. apply wp_assoc, wp_get. rewrite AX.
    destruct (decode_given tb hist h (ax_x x) d y (msr_of m) A r HT KN OK P I HO G HA HR AL) as (p & e & D & I' & HO' & T & KN').
    rewrite D. apply wp_assoc, wp_set, wp_retb. apply (K _ (mk_xst p e [])).
    - destruct RS as [RS <-]. split; [exact RS|reflexivity].
    - repeat split; assumption.
    - exact T.
  Qed.
  Lemma run_lookup : forall hist h m reloc A r ws a x s B (k : option trans -> H B) Q,
    R10 ws a x s -> XI tb hist h x -> A < 2 ^ 64 -> r < 2 ^ 64 ->
    (tr_ok (or_none (snd (translate h (r_hv m) reloc None A r))) ->
     wp (k (snd (translate h (r_hv m) reloc None A r))) Q s) ->
    wp (hbind (x_lookup m reloc A r) k) Q s.
  Proof.
    intros hist h m reloc A r ws a x s B k Q RS (P & I & HO & KN) HA HR K.
    assert (AX : h_x s = ax_x x) by (destruct RS as [_ <-]; reflexivity).
    unfold x_lookup. apply wp_assoc, wp_get. rewrite AX.
    destruct (lookup_seen h (xs_erat (ax_x x)) (msr_of m) reloc A r I HO HA HR) as [E T]. rewrite E.
    apply wp_retb, K, T.
  Qed.
  Lemma run_address : forall A r ws a x s B (k : option xlate -> H B) Q,
    R10 ws a x s -> xs_partial (ax_x x) = [] ->
    (forall s', R10 ws a x s' -> wp (k None) Q s') -> wp (hbind (x_address A r) k) Q s.
  Proof.
    intros A r ws a x s B k Q RS P K.
    assert (AX : h_x s = ax_x x) by (destruct RS as [_ <-]; reflexivity).
    unfold x_address. apply wp_assoc, wp_get. rewrite AX, P. cbn [address_lookup]. apply wp_assoc, wp_set, wp_retb, K.
    destruct RS as [RS <-]. split; [exact RS|]. unfold aux_of in *. cbn in *. rewrite <- P. destruct (h_x s). reflexivity.
  Qed.
  Lemma set_walk10 : forall t ws a x s, R10 ws a x s ->
    R10 ws a (with_cur t x) (let '(rec, h, g) := t in set_walk rec h g s).
  Proof. intros [[rec h] g] ws a x s [RS <-]. split; [exact RS|reflexivity]. Qed.
  Lemma page_ctr10 : forall c sh ws a x s B (k : unit -> H B) Q, R10 ws a x s -> shift_ok sh ->
    (forall s', R10 ws (ext a [] [(c sh, 1)]) x s' -> wp (k tt) Q s') -> wp (hbind (page_ctr c sh) k) Q s.
  Proof.
    intros c sh ws a x s B k Q RS SH K. destruct (shift_nz sh SH) as (_ & _ & _ & E). unfold page_ctr. rewrite E.
    eapply count10; [exact RS|exact K].
  Qed.

  Variable i : insn10.
  Variable z : st10.
  Notation m := (decode_msr (snd (t_msr i))).
  Definition i_pre (dxl : list xlate) : pre10 :=
    mk_pre10 (map xlate_of (t_ixl i))
      (match t_addr i with Some (_, a, r) => Some (field 64 (snd a) 0 56 * 128, field 64 (snd r) 0 39 * 4096) | None => None end)
      (option_map xlate_of (i_given i z)) dxl.
  Lemma given_in : forall l r y d, Forall (xl_ok d) l -> walk_for l r = Some y -> xl_ok d y.
  Proof.
    intros l r y d F E. unfold walk_for in E. apply find_some in E as [E _]. rewrite Forall_forall in F. apply F, E.
  Qed.
  Lemma i_given_ok : forall y, Forall (xl_ok false) (t_ixl i) -> i_given i z = Some y -> xl_ok false y.
  Proof.
    intros y F E. unfold i_given in E. destruct (t_addr i); [|discriminate]. eapply given_in; eassumption.
  Qed.

  Lemma run_insn_side : forall dxl ws a x s B (k : unit -> H B) Q,
    R10 ws a x s -> ab_addr a = ea10 i z -> ax_real x = ra10 i z -> ax_rpt x = walks10 i z -> cur_of x = z_cur z ->
    XI tb (z_asked z) (z_seen z) x -> tr_ok (z_cur z) -> (walks10 i z = false -> z_seen z = [] /\ z_cur z = no_trans) ->
    Forall (xl_ok false) (t_ixl i) -> given_ok tb (z_asked z) (t_hv i) (t_ir i) (i_given i z) (ea10 i z) (ra10 i z) ->
    ea10 i z < 2 ^ 64 -> ra10 i z < 2 ^ 64 -> ra10 i z mod 4096 = 0 ->
    (forall s' x', R10 ws (ext a [] (if walks10 i z then i_events i z else [])) x' s' ->
       ax_real x' = ax_real x -> ax_rpt x' = ax_rpt x -> cur_of x' = cur10 i z -> XI tb (asked_i i z) (seen_i i z) x' -> tr_ok (cur10 i z) ->
       wp (k tt) Q s') ->
    wp (hbind (insn_side (i_pre dxl) m) k) Q s.
  Proof.
    intros dxl ws a x s B k Q RS HA HR HW HC HX TO NW FX GO LA LR AL K.
    assert (E1 : h_rpt s = walks10 i z) by (destruct RS as [_ <-]; exact HW).
    assert (E2 : h_addr s = ea10 i z) by (rewrite <- HA; apply RS).
    assert (E3 : h_real s = ra10 i z) by (destruct RS as [_ <-]; exact HR).
    assert (E4 : (h_radix s, h_hps s, h_gps s) = z_cur z) by (destruct RS as [_ <-]; exact HC).
    unfold insn_side. apply wp_assoc, wp_get, wp_assoc, wp_get, wp_assoc, wp_get. rewrite E1, E2, E3.
    destruct (msr_bits i) as (M1 & M2 & M3).
    destruct (walks10 i z) eqn:W; cbn [negb].
    - unfold i_pre. cbn [a_ieara a_ix]. unfold i_events, seen_i, cur10, i_trans, asked_i in K.
      pose proof (i_given_ok) as GI. 
      destruct (t_addr i) as [[[hd av] rv]|] eqn:TA.
      + apply wp_assoc. destruct (i_given i z) as [y|] eqn:EG.
        * cbn [option_map]. apply wp_retb, wp_assoc. rewrite M2.
          eapply (run_decode (z_asked z) (z_seen z)); [exact RS|exact (GI y FX eq_refl)|exact HX|rewrite M1; exact GO|exact LA|exact LR|exact AL|].
          clear s RS E1 E2 E3 E4. intros s st RS XI' T. rewrite M1 in *. cbn [translate snd fst walk_of or_none] in *.
          apply wp_assoc, wp_set. apply (set_walk10 (fw_radix (y_walk y), host_shift (y_walk y), guest_shift (y_walk y))) in RS.
          cbn beta iota in RS. apply wp_assoc. eapply count10; [exact RS|]. clear s RS. intros s RS.
          eapply page_ctr10; [exact RS|apply shifts_ok|]. clear s RS. intros s RS. rewrite ext_ext in RS. 
          eapply K; [exact RS| | | | |]; try reflexivity; assumption.
        * cbn [option_map]. eapply run_address; [exact RS|apply HX|]. clear s RS E1 E2 E3 E4. intros s RS.
          apply wp_assoc. rewrite M2. eapply (run_lookup (z_asked z) (z_seen z)); [exact RS|exact HX|exact LA|exact LR|]. rewrite M1. intros T.
          set (t := snd (translate (z_seen z) (t_hv i) (t_ir i) None (ea10 i z) (ra10 i z))) in *.
          change (walk_of t) with (or_none t).
          apply (set_walk10 (or_none t)) in RS.
          assert (KK : forall s', R10 ws (ext a [] [(match t with None => WithoutIXlateErat | Some _ => WithIXlate end, 1)]) (with_cur (or_none t) x) s' -> wp (k tt) Q s').
          { intros s' RS'. eapply K.
            - instantiate (1 := with_cur (or_none t) x). clearbody t. destruct t; exact RS'.
            - destruct (or_none t) as [[? ?] ?]; reflexivity.
            - destruct (or_none t) as [[? ?] ?]; reflexivity.
            - destruct (or_none t) as [[? ?] ?]; reflexivity.
            - destruct (or_none t) as [[? ?] ?]; exact HX.
            - exact T. }
          destruct (or_none t) as [[rec hp] gp]. apply wp_assoc, wp_set. eapply count10; [exact RS|exact KK].
      + assert (EG : i_given i z = None) by (unfold i_given; rewrite TA; reflexivity). rewrite EG in K. cbn [also] in K.
        rewrite M1, M2. unfold inside in K. destruct (negb (t_hv i) && t_ir i) eqn:IN.
        * apply wp_assoc, wp_get. 
          destruct (z_cur z) as [[rec hp] gp] eqn:ZC. injection E4 as F1 F2 F3. rewrite F2.
          destruct (N.eqb_spec hp 0) as [H0|H0].
          -- eapply count10; [exact RS|]. clear s RS E1 E2 E3 F1 F2 F3. intros s RS. cbn [andb negb] in K.
             eapply K; [exact RS| | | | |]; try reflexivity; try assumption.
          -- apply wp_assoc. eapply count10; [exact RS|]. clear s RS E1 E2 E3 F1 F2 F3. intros s RS.
             apply wp_assoc, wp_get, wp_assoc, wp_get.
             assert (E4 : (h_radix s, h_hps s, h_gps s) = (rec, hp, gp)) by (destruct RS as [_ <-]; exact HC).
             injection E4 as F1 F2 F3. rewrite F1, F3.
             destruct TO as [TO|(RO & SH & SG)]; [contradiction|].
             destruct (at_offset_ok rec gp (ea10 i z) RO SG) as (g & G1 & G2 & G3 & G4). rewrite G2. cbv zeta. rewrite G1, G3.
             apply wp_set. apply (set_walk10 (at_offset rec gp (ea10 i z), hp, gp)) in RS. cbn beta iota in RS.
             cbn [andb negb] in K. eapply K; [exact RS| | | | |]; try reflexivity; try assumption.
             right. repeat split; try assumption; apply G4.
        * apply wp_retb. cbn [andb] in K. destruct (z_cur z) as [[rec hp] gp] eqn:ZC. 
          eapply K; [rewrite ext_nil; exact RS| | | | |]; try reflexivity; try assumption.
    - apply wp_retb. destruct (NW eq_refl) as [N1 N2].
      assert (G0 : i_given i z = None).
      { unfold walks10 in W. apply orb_false_iff in W as [_ W]. unfold i_given. destruct (t_ixl i); [|discriminate].
        destruct (t_addr i); reflexivity. }
      assert (C0 : cur10 i z = no_trans /\ seen_i i z = z_seen z).
      { unfold cur10, seen_i, i_trans. rewrite G0, N1, N2. unfold translate. cbn [fst snd]. destruct (t_addr i).
        - split; [|reflexivity]. destruct (t_hv i); reflexivity.
        - unfold no_trans. cbn [N.eqb negb]. rewrite andb_false_r. split; reflexivity. }
      destruct C0 as [C0 C1]. unfold asked_i in K. rewrite C0, C1, G0 in K. cbn [also] in K.
      eapply K; [rewrite ext_nil; exact RS| | | | |]; try reflexivity; try assumption; try apply no_trans_ok. congruence.
  Qed.

  (** One data address. *)
  Definition dev (h : list eop) (p : sword * sword) : list event :=
    match d_given i p, snd (d_trans i h p) with
    | Some y, _ => [(WithDXlate, 1); (DataPages (host_shift (y_walk y)), 1)]
    | None, Some _ => [(WithDXlate, 1)]
    | None, None => [(WithoutDXlateErat, 1)]
    end.
  Lemma dra_lt : forall p, dra10 p < 2 ^ 64 /\ dra10 p mod 4096 = 0.
  Proof.
    intros p. unfold dra10. split; [|apply N.mod_mul; discriminate].
    pose proof (field_lt 64 (snd (snd p)) 0 40) as X. change (2 ^ (40 - 0 + 1)) with (2 ^ 41) in X.
    apply N.lt_le_trans with (2 ^ 41 * 4096); [apply N.mul_lt_mono_pos_r; [reflexivity|exact X]|discriminate].
  Qed.
  Lemma run_data_side : forall (counted : bool) hist h p ws a x s B (k : trans -> H B) Q,
    R10 ws a x s -> XI tb hist h x -> Forall (xl_ok true) (t_dxl i) ->
    given_ok tb hist (t_hv i) (t_dr i) (d_given i p) (dea10 p) (dra10 p) -> dea10 p < 2 ^ 64 ->
    (forall s' st, R10 ws (ext a [] (if counted then dev h p else [])) (with_x st x) s' ->
       XI tb (asked_d i hist p) (fst (d_trans i h p)) (with_x st x) -> tr_ok (or_none (snd (d_trans i h p))) ->
       wp (k (or_none (snd (d_trans i h p)))) Q s') ->
    wp (hbind (data_side counted (map xlate_of (t_dxl i)) m (dea10 p) (dra10 p)) k) Q s.
  Proof.
    intros counted hist h p ws a x s B k Q RS HX FX GO LA K. destruct (dra_lt p) as [LR AL]. destruct (msr_bits i) as (M1 & M2 & M3).
    unfold data_side. rewrite (select_of true _ _ FX). unfold dev, d_trans, asked_d in K. unfold d_given in *.
    pose proof (given_in (t_dxl i) (dra10 p)) as GI. destruct (walk_for (t_dxl i) (dra10 p)) as [y|]; cbn [option_map]; apply wp_assoc.
    - apply wp_retb, wp_assoc. rewrite M3.
      eapply (run_decode hist h); [exact RS|exact (GI y true FX eq_refl)|exact HX|rewrite M1; exact GO|exact LA|exact LR|exact AL|].
      clear s RS. intros s st RS XI' T. rewrite M1 in *. cbn [translate snd fst walk_of or_none] in *. 
      destruct counted; apply wp_assoc.
      + apply wp_assoc. eapply count10; [exact RS|]. clear s RS. intros s RS.
        eapply page_ctr10; [exact RS|apply shifts_ok|]. clear s RS. intros s RS. rewrite ext_ext in RS. apply wp_retb.
        eapply K; [exact RS|exact XI'|exact T].
      + apply wp_retb, wp_retb. eapply K; [rewrite ext_nil; exact RS|exact XI'|exact T].
    - eapply run_address; [exact RS|apply HX|]. clear s RS. intros s RS. apply wp_assoc. rewrite M3.
      eapply (run_lookup hist h); [exact RS|exact HX|exact LA|exact LR|]. rewrite M1. intros T.
      assert (WX : with_x (ax_x x) x = x) by (destruct x; reflexivity).
      change (walk_of (snd (translate h (t_hv i) (t_dr i) None (dea10 p) (dra10 p))))
        with (or_none (snd (translate h (t_hv i) (t_dr i) None (dea10 p) (dra10 p)))).
      destruct counted; apply wp_assoc.
      + eapply count10; [exact RS|]. clear s RS. intros s RS. apply wp_retb. eapply (K s (ax_x x)); [|rewrite WX; exact HX|exact T].
        rewrite WX. destruct (snd (translate h (t_hv i) (t_dr i) None (dea10 p) (dra10 p))); exact RS.
      + apply wp_retb, wp_retb. eapply (K s (ax_x x)); rewrite ?WX, ?ext_nil; assumption.
  Qed.
End SIDES.
