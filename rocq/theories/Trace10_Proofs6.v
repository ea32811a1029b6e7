(** Proofs for C56: a whole trace. *)
Require Import NArith ZArith List Bool Lia.
Require Import ZifyBool ZifyN ZifyNat.
Require Import Verif.Word Verif.Codec_Types Verif.HtmBits_Model Verif.HtmBits_Spec Verif.HtmBits_Proofs.
Require Import Verif.Branch_Model Verif.Branch_Spec Verif.Branch_Proofs.
Require Import Verif.Pwc_Model Verif.Pwc_Spec Verif.Pwc_Proofs Verif.Xlate_Model Verif.Xlate_Spec Verif.Xlate_Proofs Verif.Xlate_Full.
Require Import Verif.Htm_Model Verif.Trace_Spec Verif.Trace_Proofs Verif.Trace8_Proofs Verif.Trace8_Proofs2 Verif.Trace8_Proofs3 Verif.Trace8_Proofs4.
Require Import Verif.Trace10_Spec Verif.Trace10_Proofs Verif.Trace10_Proofs2 Verif.Trace10_Proofs3 Verif.Trace10_Proofs4 Verif.Trace10_Proofs5.
Require Verif.Tlbdump_Proofs4 Verif.Tlb_Model Verif.Tlb_Spec Verif.Tlb_Proofs Verif.Bb_Model Verif.Bb_Spec Verif.Bb_Proofs.
Import ListNotations.
Local Open Scope N_scope.

Lemma tl_join : forall A (l : list A) q m, tl (l ++ q :: m) = tl (l ++ [q]) ++ m.
Proof. intros A [|x l] q m; [reflexivity|]. cbn. rewrite <- app_assoc. reflexivity. Qed.
Lemma split_last : forall A (l : list A) e r, exists q m, l ++ [e] = q :: m /\ l ++ e :: r = q :: m ++ r.
Proof.
  intros A [|x l] e r; [exists e, []; split; reflexivity|]. exists x, (l ++ [e]). split; [reflexivity|].
  cbn. rewrite <- app_assoc. reflexivity.
Qed.
Definition bare (ws : list N) : list sword := map (fun w => ([], w)) ws.
Lemma bare_words : forall ws, words_of (bare ws) = ws.
Proof. induction ws as [|w ws IH]; [reflexivity|]. cbn. f_equal. exact IH. Qed.
Lemma nonnil_app : forall A (l m : list A), nonnil (l ++ m) = nonnil l || nonnil m.
Proof. intros A [|x l] m; reflexivity. Qed.
Lemma line_aligned : forall i prev, addr10 i prev mod 4 = 0.
Proof.
  intros i prev. unfold addr10.
  assert (X : exists q, line10 i prev = q * 128) by (unfold line10; destruct (t_addr i) as [[[h av] rv]|]; eexists; reflexivity).
  destruct X as [q ->]. replace (q * 128 + 4 * t_off i) with ((q * 32 + t_off i) * 4) by lia. apply N.mod_mul. discriminate.
Qed.

Definition pre_words (i : insn10) : list sword :=
  flat_map xl_words (t_ixl i) ++ addr_words i ++ flat_map xl_words (t_dxl i).
Lemma words_split : forall i prev, insn10_words i prev =
  (pre_words i ++ [info10_word i prev]) ++ t_msr i :: prefix_words i ++ pair_words (t_data i).
Proof. intros. unfold insn10_words, pre_words, pair_words. rewrite <- !app_assoc. reflexivity. Qed.
Lemma first_tag : forall i z tb full p L, insn10_ok i z tb full -> insn10_words i (z_ea z) = p :: L ->
  field 64 (snd p) 36 55 = 0xABCDF.
Proof.
  intros i z tb full p L (SW & FST & SH & RAW & INS & OFF & HD & FX & FD & LX & LD & LEN & _) E.
  unfold insn10_words in E. destruct (t_ixl i) as [|y l].
  - cbn [flat_map app] in E. unfold addr_words in E. destruct (t_addr i) as [[[h av] rv]|].
    + cbn in E. injection E as <- _. cbn [snd]. destruct HD as [H1 H2]. apply header_kind; [exact H1|lia|exact H2].
    + cbn [app] in E. destruct (t_dxl i) as [|y l].
      * cbn [flat_map app] in E. injection E as <- _. apply info10_decoded; [exact RAW|apply line_aligned|exact LEN].
      * cbn [flat_map] in E. rewrite xl_words_eq in E. injection E as <- _. inversion FD; subst. cbn [snd].
        rewrite <- bits_field by lia. eapply xl_header. eassumption.
  - cbn [flat_map] in E. rewrite xl_words_eq in E. injection E as <- _. inversion FX; subst. cbn [snd].
    rewrite <- bits_field by lia. eapply xl_header. eassumption.
Qed.

Section INSN.
  Variable bad : bool.
  Variable stale : Z -> list N.
  Variable nwords : nat.
  Variable J : qrec -> Prop.
  Hypothesis stale_len : forall z, length (stale z) = 8%nat.
  Hypothesis small : (Z.of_nat nwords <= 2 ^ 30)%Z.
  Notation R10 := (R10 bad nwords J).

  Lemma run_pre : forall full i z tb fuel p L rest a x s B (k : option (N * pre10) -> H B) Q,
    p :: L = pre_words i ++ info10_word i (z_ea z) :: rest -> insn10_ok i z tb full -> (7 <= fuel)%nat ->
    R10 (words_of L) a x s ->
    (forall s', R10 (words_of rest) (st_ext full (stamps_of (tl (pre_words i ++ [info10_word i (z_ea z)]))) a)
                    (ax_walks (nonnil (t_ixl i ++ t_dxl i)) x) s' ->
       wp (k (Some (snd (info10_word i (z_ea z)), i_pre i z (map xlate_of (t_dxl i))))) Q s') ->
    wp (hbind (pre_loop stale full fuel (snd p) (mk_pre10 [] None None [])) k) Q s.
  Proof.
    intros full i z tb fuel p L rest a x s B k Q E (SW & FST & SH & RAW & INS & OFF & HD & FX & FD & LX & LD & LEN & LFULL & SEG & LEFT & LEFTD & WALKS) F RS K.
    rewrite words_split in SW. apply Forall_app in SW as [SW _].
    set (info := info10_word i (z_ea z)) in *.
    destruct (info10_decoded i (z_ea z) RAW (line_aligned i _) LEN) as (_ & RT & _). fold info in RT.
    assert (LASTSTEP : forall f s' x' a', (0 < f)%nat -> R10 (words_of rest) a' x' s' ->
      a' = st_ext full (stamps_of (tl (pre_words i ++ [info]))) a -> x' = ax_walks (nonnil (t_ixl i ++ t_dxl i)) x ->
      wp (hbind (pre_loop stale full f (snd info) (i_pre i z (map xlate_of (t_dxl i)))) k) Q s').
    { intros f s' x' a' F' RS' -> ->. destruct f as [|f]; [lia|]. cbn [pre_loop]. rewrite RT.
      change (2 =? REC_TYPE_XLATE) with false. change (2 =? REC_TYPE_IEARA) with false. cbn [andb]. apply wp_retb, K, RS'. }
    unfold pre_words in E, SW, LASTSTEP. rewrite <- !app_assoc in E, SW.
    destruct (split_last _ (flat_map xl_words (t_dxl i)) info rest) as (q & m & E1 & E2). rewrite E2 in E. rewrite E1 in SW.
    assert (PW : pre_words i ++ [info] = flat_map xl_words (t_ixl i) ++ addr_words i ++ q :: m).
    { unfold pre_words. rewrite <- !app_assoc, E1. reflexivity. }
    unfold pre_words in PW. rewrite PW in LASTSTEP. clear PW.
    assert (DSIDE : forall f s' x' a' ie ix, (length (t_dxl i) < f)%nat -> R10 (words_of (m ++ rest)) a' x' s' ->
      Forall sword_ok m ->
      a' = st_ext full (stamps_of (tl (flat_map xl_words (t_ixl i) ++ addr_words i ++ [q]))) a ->
      x' = ax_walks (nonnil (t_ixl i)) x ->
      i_pre i z (map xlate_of (t_dxl i)) = mk_pre10 (map xlate_of (t_ixl i)) ie ix (map xlate_of (t_dxl i)) ->
      wp (hbind (pre_loop stale full f (snd q) (mk_pre10 (map xlate_of (t_ixl i)) ie ix [])) k) Q s').
    { intros f s' x' a' ie ix F' RS' SM EA EX EP.
      eapply (run_pre_walks full bad stale nwords J stale_len small true (t_dxl i) f info rest q (m ++ rest));
        [symmetry; exact E2|rewrite E1; exact SM|exact FD|cbn; lia|exact F'|exact RS'|].
      clear s' RS'. intros s' RS'. rewrite E1 in RS'. cbn [tl] in RS'. cbn [pre_add a_ixl a_ieara a_ix a_dxl app]. rewrite <- EP.
      eapply LASTSTEP; [lia|exact RS'| |].
      - rewrite EA, st_ext_app. f_equal. rewrite !(app_assoc (flat_map xl_words (t_ixl i))). rewrite (tl_join _ _ q m), stamps_app. reflexivity.
      - rewrite EX, ax_walks_walks, nonnil_app. reflexivity. }
    unfold i_pre in DSIDE. unfold i_given in DSIDE, LEFT. unfold addr_words in E, SW, DSIDE.
    destruct (t_addr i) as [[[h av] rv]|] eqn:TA.
    - cbn [app] in E, SW.
      assert (SQ : Forall sword_ok (tl (flat_map xl_words (t_ixl i) ++ [(fst (fst (fst h, snd h)), header (snd (fst h)) 3 (snd h))]))
                   /\ sword_ok av /\ sword_ok rv /\ sword_ok q /\ Forall sword_ok m).
      { apply Forall_app in SW as [S1 S2]. inversion S2 as [|? ? T1 T2]; subst. inversion T2 as [|? ? T3 T4]; subst.
        inversion T4 as [|? ? T5 T6]; subst. inversion T6 as [|? ? T7 T8]; subst.
        repeat split; try assumption; try apply T3; try apply T5; try apply T7.
        assert (X : Forall sword_ok (flat_map xl_words (t_ixl i) ++ [(fst (fst (fst h, snd h)), header (snd (fst h)) 3 (snd h))])).
        { apply Forall_app. split; [exact S1|]. constructor; [exact T1|constructor]. }
        destruct X; [constructor|assumption]. }
      destruct SQ as (SQ & SA & SR & SQQ & SM). destruct HD as [H1 H2].
      eapply (run_pre_walks full bad stale nwords J stale_len small false (t_ixl i) fuel _ (av :: rv :: q :: m ++ rest) p L);
        [exact E|exact SQ|exact FX|cbn; lia|lia|exact RS|].
      clear s RS. intros s RS. cbn [pre_add a_ixl a_ieara a_ix a_dxl app snd].
      destruct (fuel - length (t_ixl i))%nat as [|f] eqn:EF; [lia|].
      eapply (run_ieara full bad stale nwords J stale_len small (snd (fst h), snd h) av rv q (m ++ rest) f); [exact RS|exact SA|exact SR|exact SQQ|exact H1|exact H2|reflexivity| |].
      + cbn [a_ixl]. unfold ix_of. cbn [a_ixl]. rewrite (select_of false _ _ FX). intros NE.
        assert (WN : walk_for (t_ixl i) (field 64 (snd rv) 0 39 * 4096) <> None).
        { specialize (LEFT ltac:(discriminate)). unfold ra10, page10 in LEFT. rewrite TA in LEFT. apply LEFT.
          intros X. rewrite X in NE. apply NE. reflexivity. }
        destruct (walk_for (t_ixl i) (field 64 (snd rv) 0 39 * 4096)); [cbn; discriminate|contradiction].
      + clear s RS. intros s RS. cbn [a_ixl a_dxl fst snd] in *. unfold ix_of. cbn [a_ixl]. rewrite (select_of false _ _ FX).
        eapply DSIDE; [lia|exact RS|exact SM| |reflexivity|].
        * rewrite st_ext_app. f_equal.
          match goal with |- context [stamps_of (tl (?A ++ [?e])) ++ _] =>
            change (stamps_of (tl (A ++ [e])) ++ fst av ++ fst rv ++ fst q = stamps_of (tl (A ++ e :: [av; rv; q]))) end.
          rewrite (tl_join _ (flat_map xl_words (t_ixl i)) _ [av; rv; q]), stamps_app. f_equal. cbn. rewrite app_nil_r. reflexivity.
        * unfold ra10, page10. rewrite TA. reflexivity.
    - cbn [app] in E, SW.
      assert (SQ : Forall sword_ok (tl (flat_map xl_words (t_ixl i) ++ [q])) /\ Forall sword_ok m).
      {
        assert (X : Forall sword_ok ((flat_map xl_words (t_ixl i) ++ [q]) ++ m)) by (rewrite <- app_assoc; exact SW).
        apply Forall_app in X as [X1 X2]. split; [|exact X2]. destruct X1; [constructor|assumption]. }
      destruct SQ as [SQ SM].
      eapply (run_pre_walks full bad stale nwords J stale_len small false (t_ixl i) fuel q (m ++ rest) p L);
        [exact E|exact SQ|exact FX|cbn; lia|lia|exact RS|].
      clear s RS. intros s RS. cbn [pre_add a_ixl a_ieara a_ix a_dxl app].
      eapply DSIDE; [lia|exact RS|exact SM|reflexivity|reflexivity|reflexivity].
  Qed.

  Variable junk : Z -> qrec.
  Hypothesis J10 : forall n esid branch insn addr real rec hps gps d drec dhps dgps,
    J (record10 (junk n) esid branch insn addr real rec hps gps d drec dhps dgps).
  Hypothesis JS : forall insn addr, J (suffix_record insn addr).
  Lemma at_length : forall ws a x s, R10 ws a x s -> ws <> [] -> (7 <= fuel_of s)%nat.
  Proof.
    intros ws a x s [[(D & _) _] _] NE. unfold fuel_of. rewrite D, bytes_length. destruct ws; [contradiction|]. cbn [length]. lia.
  Qed.

  Definition insn_abs (full : bool) (i : insn10) (z : st10) (a : abs) : abs :=
    after10 full i z a
      (if full then map (fun p => EStamp (snd p)) (stamps_of (insn10_words i (z_ea z))) ++ record_of10 i z else [])
      (insn10_events i z full).
  Lemma run_insn10 : forall full i z tb p L ws a x s (Q : Z -> hst -> Prop),
    insn10_words i (z_ea z) = p :: L -> R10 (words_of L ++ ws) a x s ->
    tables_good tb -> Zinv tb z x -> ab_addr a = z_ea z -> insn10_ok i z tb full -> N.of_nat (length (ab_ea a)) < 2 ^ 30 ->
    (forall s' x', R10 ws (insn_abs full i z a) x' s' -> Zinv tb (next10 i z full) x' -> Q 0%Z s') ->
    wp (decode_insn10 stale junk full (snd p)) Q s.
  Proof.
    intros full i z tb p L ws a x s Q E RS HT ZI HA OK LE K. unfold decode_insn10.
    pose proof OK as (SW & FST & SH & RAW & INS & OFF & HD & FX & FD & LX & LD & LEN & LFULL & SEG & LEFT & LEFTD & WALKS).
    rewrite E in FST. rewrite words_split in SW, E.
    eapply count10; [exact RS|]. clear s RS. intros s RS.
    eapply count10; [exact RS|]. clear s RS. intros s RS. rewrite ext_ext in RS. cbn [app] in RS.
    set (rest := t_msr i :: (prefix_words i ++ pair_words (t_data i)) ++ bare ws).
    assert (EL : p :: (L ++ bare ws) = pre_words i ++ info10_word i (z_ea z) :: rest).
    { unfold rest. change (p :: L ++ bare ws) with ((p :: L) ++ bare ws). rewrite <- E. rewrite <- !app_assoc. cbn [app]. rewrite <- !app_assoc. reflexivity. }
    assert (RS' : R10 (words_of (L ++ bare ws)) (ext a [] [(RecordsProcessed, 1); (InsnScanned, 1)]) x s).
    { rewrite words_app, bare_words. exact RS. }
    clear RS. rename RS' into RS.
    assert (FU : (7 <= fuel_of s)%nat).
    { eapply at_length; [exact RS|]. intros X. assert (Y : length (words_of (p :: L ++ bare ws)) = length (words_of (pre_words i ++ info10_word i (z_ea z) :: rest))) by congruence.
      rewrite words_app, !words_cons, X in Y. unfold rest in Y. rewrite words_cons in Y. rewrite FST in Y.
      repeat (rewrite app_length in Y || cbn [length map app] in Y). lia. }
    assert (PRE : wp (hbind (pre_loop stale full (fuel_of s) (snd p) (mk_pre10 [] None None []))
      (fun r => match r with
                | None => hret (-1)%Z
                | Some (v, a) =>
                    match decode_info10 v with
                    | None => hret (-1)%Z
                    | Some info =>
                        _ <-- count InsnProcessed ;;
                        w <-- htm_decode_fetch stale full ;;
                        match w with
                        | None => hret (-1)%Z
                        | Some w =>
                            let m := decode_msr w in
                            d <-- data_words stale full info ;;
                            match d with
                            | None => hret (-1)%Z
                            | Some d => done10 junk full info m a d
                            end
                        end
                    end
                end)) Q s).
    2:{ unfold wp, hbind in *. exact PRE. }
    eapply run_pre; [exact EL|exact OK|exact FU|exact RS|]. clear s RS FU. intros s RS.
    destruct (info10_decoded i (z_ea z) RAW (line_aligned i _) LEN) as (DI & _ & _). rewrite DI.
    eapply count10; [exact RS|]. clear s RS. intros s RS.
    apply Forall_app in SW as [_ SW]. inversion SW as [|? ? SM SD]; subst.
    eapply fetch10; [exact stale_len|exact small|exact RS|exact SM|]. clear s RS. intros s RS. cbv zeta.
    eapply run_data; [exact stale_len|exact small|exact RS|exact SD| |exact LFULL|].
    { intros ES. apply SEG, ES. }
    clear s RS. intros s RS. rewrite bare_words in RS.
    destruct ZI as (I1 & I2 & I3 & I4 & I5 & I6 & I7 & I8 & I9).
    assert (WK : z_walks z || nonnil (t_ixl i ++ t_dxl i) = walks10 i z) by reflexivity.
    assert (WF : walks10 i z = false -> z_walks z = false) by (intros X; rewrite <- WK in X; apply orb_false_iff in X; apply X).
    eapply run_done10; [exact HT|exact J10|exact JS|exact RS| |exact HA|exact I6|exact OK|exact LE|].
    - unfold Zinv. cbn [z_ea z_ra z_walks z_seen z_cur z_asked ax_walks ax_real ax_rpt].
      split; [exact I1|]. split; [exact I2|]. split; [rewrite I3; exact WK|]. split; [exact I4|]. split; [exact I5|].
      split; [intros X; apply I6, WF, X|]. split; [exact I7|]. split; assumption.
    - clear s RS. intros s x' [[C SIM] AX] ZI. eapply K; [|exact ZI]. split; [|exact AX]. split; [exact C|].
      eapply sim_cnt; [exact SIM| | | | | | |]; unfold insn_abs, after10, prev10, st_ext, ext; cbn [ab_addr ab_ops ab_log ab_ea ab_out ab_cnt ab_prev]; try reflexivity.
      + assert (ST : stamps_of (insn10_words i (z_ea z)) = stamps_of (tl (pre_words i ++ [info10_word i (z_ea z)]))
             ++ fst (t_msr i) ++ stamps_of (prefix_words i ++ pair_words (t_data i))).
        { rewrite words_split, stamps_app. f_equal. 
          destruct (pre_words i ++ [info10_word i (z_ea z)]) as [|p' L'] eqn:EP; [destruct (pre_words i); discriminate|].
          cbn in E. injection E as -> _. cbn [tl stamps_of flat_map].
          transitivity ([] ++ flat_map fst L'); [f_equal; exact FST|reflexivity]. }
        unfold outs_of. destruct full; [|rewrite !app_nil_r; reflexivity]. rewrite ST, !map_app, !app_nil_r, <- !app_assoc. reflexivity.
      + intros c.
        assert (ST : stamps_of (insn10_words i (z_ea z)) = stamps_of (tl (pre_words i ++ [info10_word i (z_ea z)]))
             ++ fst (t_msr i) ++ stamps_of (prefix_words i ++ pair_words (t_data i))).
        { rewrite words_split, stamps_app. f_equal. 
          destruct (pre_words i ++ [info10_word i (z_ea z)]) as [|p' L'] eqn:EP; [destruct (pre_words i); discriminate|].
          cbn in E. injection E as -> _. cbn [tl stamps_of flat_map].
          transitivity ([] ++ flat_map fst L'); [f_equal; exact FST|reflexivity]. }
        unfold insn10_events. rewrite ST, !events_app, !count_of_app. unfold event. ring.
  Qed.
End INSN.

Section LOOP10.
  Variable qs : Tlb_Model.qsort.
  Variable bad : bool.
  Variable stale : Z -> list N.
  Variable junk : Z -> qrec.
  Variable nwords : nat.
  Variable J : qrec -> Prop.
  Hypothesis stale_len : forall z, length (stale z) = 8%nat.
  Hypothesis small : (Z.of_nat nwords < 2 ^ 30)%Z.
  Hypothesis J10 : forall n esid branch insn addr real rec hps gps d drec dhps dgps,
    J (record10 (junk n) esid branch insn addr real rec hps gps d drec dhps dgps).
  Hypothesis JS : forall insn addr, J (suffix_record insn addr).
  Notation R10 := (R10 bad nwords J).
  Lemma small' : (Z.of_nat nwords <= 2 ^ 30)%Z. Proof. lia. Qed.

  Lemma first10 : forall w ws a x s B (k : option N -> H B) Q, R10 (w :: ws) a x s ->
    (forall s', R10 ws a x s' -> wp (k (Some w)) Q s') -> wp (hbind (fetch_internal stale) k) Q s.
  Proof.
    intros w ws a x s B k Q [RS AX] K. apply wp_bind. eapply wp_post.
    - apply wp_frame; [apply keeps_internal|].
      assert (X : wp (hbind (fetch_internal stale) hret) (fun v s' => v = Some w /\ R bad nwords J ws a s') s).
      { eapply fetch_one; [exact stale_len|exact small'|exact RS|]. intros s' RS'. apply wp_ret. split; [reflexivity|exact RS']. }
      apply wp_bind_inv in X. exact X.
    - cbn beta. intros v s' [X AX']. unfold wp, hret in X. destruct X as [-> RS']. apply K. split; [exact RS'|congruence].
  Qed.
  Lemma stamp10 : forall full w r ws a x s B (k : bool -> H B) Q, R10 ws a x s -> stamp w r ->
    (forall s', R10 ws (of_stamp full r a) x s' -> wp (k true) Q s') -> wp (hbind (decode_stamp full w) k) Q s.
  Proof.
    intros full w r ws a x s B k Q [RS AX] ST K. apply wp_bind. eapply wp_post.
    - apply wp_frame; [apply keeps_stamp|].
      assert (X : wp (hbind (decode_stamp full w) hret) (fun v s' => v = true /\ R bad nwords J ws (of_stamp full r a) s') s).
      { eapply run_stamp; [exact RS|exact ST|]. intros s' RS'. apply wp_ret. split; [reflexivity|exact RS']. }
      apply wp_bind_inv in X. exact X.
    - cbn beta. intros v s' [X AX']. unfold wp, hret in X. destruct X as [-> RS']. apply K. split; [exact RS'|congruence].
  Qed.
  Lemma finish10 : forall v ws a x s (Q : bool -> hst -> Prop), R10 ws a x s ->
    (forall s', R10 ws a x s' -> Q true s') ->
    wp (_ <-- (if (0 =? -2)%Z then htm_rewind v else hret tt) ;;
        if (0 <? 0)%Z then
          e <-- hget h_errors ;; _ <-- hset (set_errors (e + 1)) ;;
          (if (100 <? e)%Z then herror HAssert else hret true)
        else _ <-- hset (set_errors 0) ;; hret true) Q s.
  Proof.
    intros v ws a x s Q RS K. change (0 =? -2)%Z with false. change (0 <? 0)%Z with false. cbv iota.
    apply wp_retb, wp_set, wp_ret, K. exact RS.
  Qed.

  Definition item_abs (full : bool) (z : st10) (t : item10) (a : abs) : abs :=
    match t with
    | JStamp _ r => of_stamp full r a
    | JInsn i => insn_abs full i z a
    | JOther _ => a
    end.
  Lemma run_item10 : forall full tb t z a x ws s (Q : bool -> hst -> Prop), R10 (words10 z t ++ ws) a x s ->
    tables_good tb -> item10_ok full tb z t -> Zinv tb z x -> ab_addr a = z_ea z -> N.of_nat (length (ab_ea a)) < 2 ^ 30 ->
    (forall s' x', R10 ws (item_abs full z t a) x' s' -> Zinv tb (step10 full z t) x' -> Q true s') ->
    wp (decode_one qs stale junk full) Q s.
  Proof.
    intros full tb t z a x ws s Q RS HT OK ZI HA LE K. unfold decode_one.
    destruct t as [w r|i|w]; cbn [words10 app item_abs step10] in *; cbn [item10_ok] in OK.
    - destruct OK as [W ST]. eapply first10; [exact RS|]. clear s RS. intros s RS.
      pose proof (stamp_marked w r ST) as M.
      destruct (N.eqb_spec w 0) as [Z|_]; [rewrite field_zero in M by exact Z; discriminate|].
      rewrite bits_field by lia. rewrite M, N.eqb_refl. apply wp_assoc.
      eapply stamp10; [exact RS|exact ST|]. clear s RS. intros s RS. apply wp_retb.
      eapply finish10; [exact RS|]. intros s' RS'. eapply K; [exact RS'|exact ZI].
    - destruct (insn10_words i (z_ea z)) as [|p L] eqn:E.
      { destruct OK as (_ & F & _). rewrite E in F. contradiction. }
      pose proof (first_tag i z tb full p L OK E) as T.
      pose proof OK as (SW & FST & _). rewrite E in SW, FST. inversion SW as [|? ? (_ & _ & NS) _]; subst.
      rewrite words_cons, FST in RS. cbn [map app] in RS.
      eapply first10; [exact RS|]. clear s RS. intros s RS.
      destruct (N.eqb_spec (snd p) 0) as [Z|_]; [rewrite field_zero in T by exact Z; discriminate|].
      rewrite !bits_field by lia. rewrite T. apply N.eqb_neq in NS. rewrite NS.
      change (703711 =? 703710) with false. change (703711 =? 703711) with true. cbv iota.
      apply wp_bind. eapply run_insn10; [exact stale_len|exact small'|exact J10|exact JS|exact E|exact RS|exact HT|exact ZI|exact HA|exact OK|exact LE|].
      clear s RS. intros s x' RS ZI'. eapply finish10; [exact RS|]. intros s' RS'. eapply K; [exact RS'|exact ZI'].
    - destruct OK as (W & M1 & M2 & M3). eapply first10; [exact RS|]. clear s RS. intros s RS.
      destruct (w =? 0); [apply wp_ret; eapply K; [exact RS|exact ZI]|]. rewrite !bits_field by lia.
      apply N.eqb_neq in M1, M2, M3. rewrite M1, M2, M3. apply wp_retb. eapply finish10; [exact RS|].
      intros s' RS'. eapply K; [exact RS'|exact ZI].
  Qed.

  Fixpoint items_abs (full : bool) (z : st10) (l : list item10) (a : abs) : abs :=
    match l with [] => a | t :: l' => items_abs full (step10 full z t) l' (item_abs full z t a) end.
  Lemma item_addr : forall full z t a, ab_addr a = z_ea z -> ab_addr (item_abs full z t a) = z_ea (step10 full z t).
  Proof. intros full z [] a H; cbn; try exact H. destruct full; reflexivity. Qed.
  Lemma run_items10 : forall full tb l fuel z a x s (Q : unit -> hst -> Prop), R10 (file10 full z l) a x s ->
    tables_good tb -> trace10_by full tb z l -> Zinv tb z x -> ab_addr a = z_ea z ->
    (length (ab_ea a) + length l <= nwords)%nat ->
    bad = true \/ other (be_val (stale (Z.of_nat nwords))) ->
    (length l + 2 <= fuel)%nat ->
    (forall s', Sim J (items_abs full z l a) s' -> Q tt s') -> wp (decode_loop qs stale junk full fuel) Q s.
  Proof.
    intros full tb. induction l as [|t l IH]; intros fuel z a x s Q RS HT OK ZI HA LE OT F K.
    - destruct fuel as [|[|fuel]]; [cbn in F; lia|cbn in F; lia|]. eapply run_end; [exact small'|exact (proj1 RS)|exact OT|exact K].
    - destruct fuel as [|fuel]; [cbn in F; lia|].
      change (decode_loop qs stale junk full (S fuel)) with
        (b <-- decode_one qs stale junk full ;; if b : bool then decode_loop qs stale junk full fuel else hret tt).
      apply wp_bind. cbn [file10] in RS. cbn [trace10_by] in OK. destruct OK as [OK1 OK2]. cbn [length] in *.
      eapply run_item10; [exact RS|exact HT|exact OK1|exact ZI|exact HA|lia|].
      intros s1 x1 RS1 ZI1. eapply IH; [exact RS1|exact HT|exact OK2|exact ZI1|apply item_addr, HA| |exact OT|lia|exact K].
      assert ((length (ab_ea (item_abs full z t a)) <= length (ab_ea a) + 1)%nat); [|lia].
      destruct t; cbn [item_abs of_stamp insn_abs after10 ab_ea]; rewrite ?app_length; cbn [length]; lia.
  Qed.
  Lemma items_abs_ok : forall full l z a, ab_addr a = z_ea z ->
    ab_log (items_abs full z l a) = ab_log a ++ insns10 full z l
    /\ ab_ea (items_abs full z l a) = ab_ea a ++ map fst (insns10 full z l)
    /\ ab_out (items_abs full z l a) = ab_out a ++ (if full then records10 full z l else [])
    /\ ab_cnt (items_abs full z l a) = ab_cnt a ++ events10 full z l
    /\ ab_ops (items_abs full z l a) = ab_ops a.
  Proof.
    intros full. induction l as [|t l IH]; intros z a HA.
    - cbn. destruct full; rewrite !app_nil_r; auto.
    - cbn [items_abs]. destruct (IH (step10 full z t) (item_abs full z t a) (item_addr full z t a HA)) as (H1 & H2 & H3 & H4 & H5).
      rewrite H1, H2, H3, H4, H5. clear H1 H2 H3 H4 H5 IH. cbn [insns10 records10 events10].
      destruct t as [w r|i|w]; cbn [item_abs of_stamp insn_abs after10 ab_log ab_ea ab_out ab_cnt ab_ops ab_addr app map fst];
        rewrite ?map_app, <- ?app_assoc; repeat split; try reflexivity.
      + destruct full; [rewrite <- app_assoc|rewrite app_nil_r]; reflexivity.
      + destruct full; rewrite <- ?app_assoc; reflexivity.
  Qed.
End LOOP10.

Lemma words10_pos : forall full tb z t, item10_ok full tb z t -> (1 <= length (words10 z t))%nat.
Proof.
  intros full tb z [w r|i|w] OK; cbn [words10 length]; try lia. cbn [item10_ok] in OK. destruct OK as (_ & F & _).
  destruct (insn10_words i (z_ea z)) as [|p L]; [contradiction|]. rewrite words_cons, app_length. cbn [length]. lia.
Qed.
Lemma swords64 : forall l, Forall sword_ok l -> Forall (fun w => w < 2 ^ 64) (words_of l).
Proof.
  induction 1 as [|p l (S1 & S2 & _) _ IH]; [constructor|]. rewrite words_cons. apply Forall_app. split.
  - clear - S1. induction S1 as [|q st [H _] _ IH]; constructor; assumption.
  - constructor; assumption.
Qed.

(** With a property of all instruction records. *)
Lemma trace10_all : forall qs stale junk full bad (J : qrec -> Prop) items,
  (forall n esid branch insn addr real rec hps gps d drec dhps dgps,
     J (record10 (junk n) esid branch insn addr real rec hps gps d drec dhps dgps)) ->
  (forall insn addr, J (suffix_record insn addr)) ->
  (forall z, length (stale z) = 8%nat) ->
  let ws := file10 full start10 items in
  (Z.of_nat (length ws) < 2 ^ 30)%Z -> trace10_ok full start10 items ->
  bad = true \/ other (be_val (stale (Z.of_nat (length ws)))) ->
  exists s, htm_decode qs stale junk full (bytes_of ws) bad = HOk s
    /\ Forall2 (told J) (if full then records10 full start10 items else []) (h_out s)
    /\ h_log s = insns10 full start10 items
    /\ Bb_Model.bb_run (map fst (insns10 full start10 items)) = Bb_Model.BOk (h_bb s)
    /\ (forall c, h_stat s c = count_of c (events10 full start10 items) mod 2 ^ 32)
    /\ Tlbdump_Proofs4.good [] (h_tlb s).
Proof.
  intros qs stale junk full bad J items J10 JS SL ws SM (tb & HT & OK) OT. unfold htm_decode.
  assert (LI : (length items <= length ws)%nat /\ Forall (fun w => w < 2 ^ 64) ws).
  { unfold ws. clear - OK. revert OK. generalize start10. induction items as [|t l IH]; intros z OK; [split; [cbn; lia|constructor]|].
    cbn [trace10_by] in OK. destruct OK as [O1 O2]. destruct (IH _ O2) as [IH1 IH2]. cbn [file10 length]. rewrite app_length.
    pose proof (words10_pos full tb z t O1). split; [lia|]. apply Forall_app. split; [|exact IH2].
    destruct t as [w r|i|w]; cbn [words10]; try (repeat constructor; apply O1). apply swords64. apply O1. }
  destruct LI as [LI W64].
  destruct Tlb_Model.tlb_init as [t|e] eqn:TI; [|discriminate].
  destruct Bb_Model.bb_init as [b|e] eqn:BI; [|discriminate].
  pose (a0 := mk_abs 0 [] [] [] [] [] (0, false)).
  assert (R0 : R bad (length ws) J ws a0 (init_st (bytes_of ws) bad t b)).
  { split; [repeat split; assumption|]. split; [reflexivity|]. split.
    - injection TI as <-. apply Tlbdump_Proofs4.good_zero.
    - split; [|split; [reflexivity|split; [constructor|split; [|reflexivity]]]].
      + cbn [a0 ab_ea]. unfold Bb_Model.bb_run. rewrite BI. reflexivity.
      + intros c. reflexivity. }
  assert (RUN : wp (decode_loop qs stale junk full (2 * length (bytes_of ws) + 8)) (fun _ s => Sim J (items_abs full start10 items a0) s)
                   (init_st (bytes_of ws) bad t b)).
  { eapply run_items10 with (a := a0); [exact SL|exact SM|exact J10|exact JS|split; [exact R0|reflexivity]|exact HT|exact OK| |reflexivity| |exact OT| |].
    - unfold Zinv. cbn. repeat split; try reflexivity; try constructor; try discriminate; auto. apply knowing_start.
    - cbn. lia.
    - rewrite bytes_length. lia.
    - intros s' H. exact H. }
  unfold wp in RUN. destruct (decode_loop _ _ _ _ _ _) as [[s u]|e]; [|contradiction].
  exists s. split; [reflexivity|]. destruct RUN as (_ & S2 & S3 & S4 & S5 & S6 & _).
  destruct (items_abs_ok full items start10 a0 eq_refl) as (H1 & H2 & H3 & H4 & H5). rewrite H1 in S4. rewrite H2 in S3. rewrite H3 in S5.
  rewrite H5 in S2.
  split; [exact S5|]. split; [exact S4|]. split; [exact S3|]. split; [|exact S2].
  intros c. rewrite (S6 c), H4. reflexivity.
Qed.
Lemma trace10_with : forall qs stale junk full bad (J : qrec -> Prop) items,
  (forall n esid branch insn addr real rec hps gps d drec dhps dgps,
     J (record10 (junk n) esid branch insn addr real rec hps gps d drec dhps dgps)) ->
  (forall insn addr, J (suffix_record insn addr)) ->
  (forall z, length (stale z) = 8%nat) ->
  let ws := file10 full start10 items in
  (Z.of_nat (length ws) < 2 ^ 30)%Z -> trace10_ok full start10 items ->
  bad = true \/ other (be_val (stale (Z.of_nat (length ws)))) ->
  exists s, htm_decode qs stale junk full (bytes_of ws) bad = HOk s
    /\ Forall2 (told J) (if full then records10 full start10 items else []) (h_out s)
    /\ h_log s = insns10 full start10 items
    /\ Bb_Model.bb_run (map fst (insns10 full start10 items)) = Bb_Model.BOk (h_bb s)
    /\ (forall c, counted c -> h_stat s c = count_of c (events10 full start10 items) mod 2 ^ 32).
Proof.
  intros qs stale junk full bad J items J10 JS SL ws SM OK OT.
  destruct (trace10_all qs stale junk full bad J items J10 JS SL SM OK OT) as (s & H1 & H2 & H3 & H4 & H5 & _).
  exists s. split; [exact H1|]. split; [exact H2|]. split; [exact H3|]. split; [exact H4|]. intros c _. apply H5.
Qed.
Lemma trace10 : forall qs stale junk full bad items,
  (forall z, length (stale z) = 8%nat) ->
  let ws := file10 full start10 items in
  (Z.of_nat (length ws) < 2 ^ 30)%Z -> trace10_ok full start10 items ->
  bad = true \/ other (be_val (stale (Z.of_nat (length ws)))) ->
  exists s, htm_decode qs stale junk full (bytes_of ws) bad = HOk s
    /\ Forall2 tells (if full then records10 full start10 items else []) (h_out s)
    /\ h_log s = insns10 full start10 items
    /\ Bb_Model.bb_run (map fst (insns10 full start10 items)) = Bb_Model.BOk (h_bb s)
    /\ (forall c, counted c -> h_stat s c = count_of c (events10 full start10 items) mod 2 ^ 32).
Proof.
  intros qs stale junk full bad items SL ws SM OK OT.
  destruct (trace10_with qs stale junk full bad (fun _ => True) items (fun _ _ _ _ _ _ _ _ _ _ _ _ _ => I)
              (fun _ _ => I) SL SM OK OT) as (s & H1 & H2 & H3).
  exists s. split; [exact H1|]. split; [|exact H3].
  clear - H2. induction H2 as [|e r l l' [H _] _ IH]; constructor; assumption.
Qed.
