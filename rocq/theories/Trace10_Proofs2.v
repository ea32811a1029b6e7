(** Proofs for C56: the words of an instruction. *)
Require Import NArith ZArith List Bool Lia.
Require Import ZifyBool ZifyN ZifyNat.
Require Import Verif.Word Verif.Codec_Types Verif.HtmBits_Model Verif.HtmBits_Spec Verif.HtmBits_Proofs.
Require Import Verif.Branch_Model Verif.Branch_Spec.
Require Import Verif.Pwc_Model Verif.Pwc_Spec Verif.Xlate_Model Verif.Xlate_Spec.
Require Import Verif.Htm_Model Verif.Trace_Spec Verif.Trace_Proofs Verif.Trace8_Proofs Verif.Trace8_Proofs2 Verif.Trace10_Spec Verif.Trace10_Proofs.
Require Verif.Tlb_Model Verif.Tlb_Spec Verif.Tlb_Proofs Verif.Bb_Model Verif.Bb_Spec Verif.Bb_Proofs.
Import ListNotations.
Local Open Scope N_scope.

Definition nonnil {A} (l : list A) : bool := match l with [] => false | _ => true end.
Definition ax_walks (b : bool) (x : aux) : aux :=
  mk_aux (ax_real x) (ax_radix x) (ax_hps x) (ax_gps x) (ax_rpt x || b) (ax_x x).
Lemma ax_walks_false : forall x, ax_walks false x = x.
Proof. intros []. unfold ax_walks. cbn. rewrite orb_false_r. reflexivity. Qed.
Lemma ax_walks_walks : forall b b' x, ax_walks b' (ax_walks b x) = ax_walks (b || b') x.
Proof. intros. unfold ax_walks. cbn. rewrite orb_assoc. reflexivity. Qed.

(** The word reached and those after it. *)
Definition pre_add (d : bool) (l : list xlate) (p : pre10) : pre10 :=
  if d then mk_pre10 (a_ixl p) (a_ieara p) (a_ix p) (a_dxl p ++ l)
  else mk_pre10 (a_ixl p ++ l) (a_ieara p) (a_ix p) (a_dxl p).
Lemma pre_add_nil : forall d p, pre_add d [] p = p.
Proof. intros [] []; unfold pre_add; cbn; rewrite app_nil_r; reflexivity. Qed.
Lemma pre_add_add : forall d l l' p, pre_add d l' (pre_add d l p) = pre_add d (l ++ l') p.
Proof. intros [] l l' []; unfold pre_add; cbn; rewrite app_assoc; reflexivity. Qed.

Section PRE.
  Variable full bad : bool.
  Variable stale : Z -> list N.
  Variable nwords : nat.
  Variable J : qrec -> Prop.
  Hypothesis stale_len : forall z, length (stale z) = 8%nat.
  Hypothesis small : (Z.of_nat nwords <= 2 ^ 30)%Z.
  Notation R10 := (R10 bad nwords J).

  Definition side_of (d : bool) (p : pre10) : list xlate := if d then a_dxl p else a_ixl p.
  Lemma run_pre_walks : forall d l fuel q rest p L pre a x s B (k : option (N * pre10) -> H B) Q,
    p :: L = flat_map xl_words l ++ q :: rest ->
    Forall sword_ok (tl (flat_map xl_words l ++ [q])) -> Forall (xl_ok d) l -> (length (side_of d pre) + length l <= 2)%nat ->
    (length l < fuel)%nat ->
    R10 (words_of L) a x s ->
    (forall s', R10 (words_of rest) (st_ext full (stamps_of (tl (flat_map xl_words l ++ [q]))) a)
                    (ax_walks (nonnil l) x) s' ->
       wp (hbind (pre_loop stale full (fuel - length l) (snd q) (pre_add d (map xlate_of l) pre)) k) Q s') ->
    wp (hbind (pre_loop stale full fuel (snd p) pre) k) Q s.
  Proof.
    intros d. induction l as [|y l IH]; intros fuel q rest p L pre a x s B k Q E SO OK LEN F RS K.
    - cbn [flat_map app] in *. injection E as -> ->. cbn [map length nonnil tl stamps_of flat_map] in K.
      rewrite Nat.sub_0_r, pre_add_nil, st_ext_nil, ax_walks_false in K. apply K. exact RS.
    - destruct fuel as [|fuel]; [cbn in F; lia|]. cbn [length] in *.
      cbn [flat_map] in E, SO. rewrite xl_words_eq in E, SO. cbn [app tl] in E, SO. injection E as -> ->.
      inversion OK as [|? ? O1 O2]; subst.
      (* one step *)
      assert (STEP : wp (hbind (_ <-- hset (set_rpt true) ;;
          x0 <-- decode_insn_xlate stale full (y_hdr y) ;;
          match x0 with
          | None => hret None
          | Some x0 => w <-- htm_decode_fetch stale full ;;
              match w with None => hret None | Some v' => pre_loop stale full fuel v' (pre_add d [x0] pre) end
          end) k) Q s).
      { apply wp_assoc, wp_set.
        assert (RS1 : R10 (words_of ((y_body y ++ flat_map xl_words l) ++ q :: rest)) a (ax_walks true x) (set_rpt true s)).
        { destruct RS as [RS AX]. split; [exact RS|]. unfold aux_of in *. cbn. rewrite <- AX. unfold ax_walks. cbn.
          rewrite orb_true_r. reflexivity. }
        clear RS. set (s1 := set_rpt true s) in *. clearbody s1. clear s. rewrite <- app_assoc in RS1, SO.
        apply Forall_app in SO as [SO1 SO2]. apply wp_assoc.
        eapply run_xlate; [exact stale_len|exact small|exact RS1|exact O1|exact SO1|]. clear s1 RS1. intros s RS.
        destruct (flat_map xl_words l ++ q :: rest) as [|p' L'] eqn:EL.
        { destruct (flat_map xl_words l); discriminate. }
        apply wp_assoc.
        assert (P12 : sword_ok p' /\ Forall sword_ok (tl (flat_map xl_words l ++ [q]))).
        { clear - SO2 EL. destruct (flat_map xl_words l) as [|z zs]; cbn in *; injection EL as <- EL; inversion SO2; subst; split; assumption. }
        destruct P12 as [P1 P2].
        eapply fetch10; [exact stale_len|exact small|exact RS|exact P1|]. clear s RS. intros s RS.
        rewrite st_ext_app in RS.
        eapply IH; [symmetry; exact EL|exact P2|exact O2| |lia|exact RS|].
        - unfold side_of, pre_add in *. destruct d; cbn; rewrite app_length; cbn; lia.
        - clear s RS. intros s RS. rewrite st_ext_app, ax_walks_walks in RS.
          rewrite pre_add_add. cbn [app]. apply K.
          replace (nonnil (y :: l)) with true by reflexivity. cbn [orb] in RS. 
          cbn [flat_map]. rewrite xl_words_eq. cbn [app tl].
          assert (ES : stamps_of ((y_body y ++ flat_map xl_words l) ++ [q])
            = (stamps_of (y_body y) ++ fst p') ++ stamps_of (tl (flat_map xl_words l ++ [q]))).
          { rewrite <- app_assoc, stamps_app, <- app_assoc. f_equal.
            assert (EP : hd q (flat_map xl_words l ++ [q]) = p').
            { clear - EL. destruct (flat_map xl_words l) as [|z zs]; cbn in *; congruence. }
            rewrite <- EP. clear. destruct (flat_map xl_words l) as [|z zs]; cbn; reflexivity. }
          rewrite ES. exact RS. }
      destruct (xl_header d y O1) as (H1 & _ & _ & H2 & _ & _).
      cbn [pre_loop snd]. rewrite H1, H2. change (1 =? REC_TYPE_XLATE) with true. change (1 =? REC_TYPE_IEARA) with false.
      destruct d; cbn [negb andb]; cbn [side_of] in LEN; 
        (match goal with |- context [(2 <=? ?n)%nat] => replace (2 <=? n)%nat with false by lia end); exact STEP.
  Qed.

  (** *** The address *)
  Definition ix_of (pre : pre10) (r : N) : option xlate := select false (a_ixl pre) r.
  Lemma run_ieara : forall h av rv q rest fuel pre a x s B (k : option (N * pre10) -> H B) Q,
    R10 (words_of (av :: rv :: q :: rest)) a x s -> sword_ok av -> sword_ok rv -> sword_ok q ->
    fst h < 2 ^ 34 -> snd h < 2 ^ 8 -> a_dxl pre = [] ->
    let r := field 64 (snd rv) 0 39 * 4096 in
    (a_ixl pre <> [] -> ix_of pre r <> None) ->
    (forall s', R10 (words_of rest) (st_ext full (fst av ++ fst rv ++ fst q) a) x s' ->
       wp (hbind (pre_loop stale full fuel (snd q)
             (mk_pre10 (a_ixl pre) (Some (field 64 (snd av) 0 56 * 128, r)) (ix_of pre r) [])) k) Q s') ->
    wp (hbind (pre_loop stale full (S fuel) (header (fst h) 3 (snd h)) pre) k) Q s.
  Proof.
    intros h av rv q rest fuel pre a x s B k Q RS OA OR OQ H1 H2 DX r SEL K.
    cbn [pre_loop]. rewrite (header_type (fst h) 3 (snd h) H1 ltac:(lia) H2).
    change (3 =? REC_TYPE_XLATE) with false. change (3 =? REC_TYPE_IEARA) with true. cbn [andb].
    apply wp_assoc. unfold decode_ieara. apply wp_assoc.
    eapply fetch10; [exact stale_len|exact small|exact RS|exact OA|]. clear s RS. intros s RS. apply wp_assoc.
    eapply fetch10; [exact stale_len|exact small|exact RS|exact OR|]. clear s RS. intros s RS. apply wp_retb.
    rewrite !bits_field by lia.
    assert (E1 : field 64 (snd av) 0 56 * 2 ^ 7 mod w64 = field 64 (snd av) 0 56 * 128).
    { apply N.mod_small. pose proof (field_lt 64 (snd av) 0 56) as X. change (2 ^ (56 - 0 + 1)) with (2 ^ 57) in X.
      change w64 with (2 ^ 57 * 2 ^ 7). apply N.mul_lt_mono_pos_r; [reflexivity|exact X]. }
    assert (E2 : field 64 (snd rv) 0 39 * 2 ^ 12 mod w64 = r).
    { apply N.mod_small. pose proof (field_lt 64 (snd rv) 0 39) as X. change (2 ^ (39 - 0 + 1)) with (2 ^ 40) in X.
      apply N.lt_le_trans with (2 ^ 40 * 2 ^ 12); [apply N.mul_lt_mono_pos_r; [reflexivity|exact X]|discriminate]. }
    rewrite E1, E2. apply wp_assoc.
    assert (X : wp (hbind (hret tt) (fun _ => hbind (_ <-- partial_insert_all (a_dxl pre);; w <-- htm_decode_fetch stale full ;;
       match w with None => hret None | Some v' => pre_loop stale full fuel v'
           (mk_pre10 (a_ixl pre) (Some (field 64 (snd av) 0 56 * 128, r)) (ix_of pre r) []) end) k)) Q s).
    { apply wp_retb. rewrite DX. cbn [partial_insert_all]. apply wp_assoc, wp_retb, wp_assoc.
      eapply fetch10; [exact stale_len|exact small|exact RS|exact OQ|]. clear s RS. intros s RS. apply K.
      rewrite !st_ext_app in RS. rewrite ?app_assoc in *. exact RS. }
    unfold ix_of in *. destruct (select false (a_ixl pre) r) as [y|]; [exact X|].
    destruct (a_ixl pre) as [|y l]; [exact X|]. exfalso. apply SEL; [discriminate|reflexivity].
  Qed.
End PRE.

(** ** The instruction word *)
Definition info10_of (i : insn10) (a : N) : info10 :=
  mk_info10 (t_raw i) (t_branch i) (here (t_prefix i)) (a mod 256) (length (t_data i)) (t_esid i).
Lemma info10_decoded : forall i prev, t_raw i < 2 ^ 32 -> addr10 i prev mod 4 = 0 ->
  (if t_esid i then length (t_data i) = 1%nat else (length (t_data i) <= 2)%nat) ->
  decode_info10 (snd (info10_word i prev)) = Some (info10_of i (addr10 i prev))
  /\ rec_type (snd (info10_word i prev)) = 2 /\ field 64 (snd (info10_word i prev)) 36 55 = 0xABCDF.
Proof.
  intros i prev RAW AL LEN. unfold info10_word. cbn [snd]. set (A := addr10 i prev) in *. clearbody A.
  set (parts := [(32, t_raw i); (1, b1 (t_branch i)); (1, b1 (here (t_prefix i))); (2, 2); (20, 0xABCDF);
                 (6, A mod 256 / 4); (2, kind10 i)]).
  assert (KD : kind10 i < 4) by (unfold kind10; destruct (t_esid i); lia).
  assert (AM : A mod 256 = A mod 256 / 4 * 4).
  { pose proof (N.div_mod (A mod 256) 4 ltac:(discriminate)) as X.
    assert (Y : A mod 256 mod 4 = 0).
    { change 256 with (4 * 64). rewrite N.mod_mul_r by discriminate. rewrite AL. rewrite N.add_0_l.
      rewrite N.mul_comm, N.mod_mul by discriminate. reflexivity. }
    rewrite Y in X. lia. }
  assert (AB : A mod 256 / 4 < 2 ^ 6) by (apply N.div_lt_upper_bound; [discriminate|]; apply N.mod_lt; discriminate).
  assert (F : fits parts).
  { unfold fits, parts. repeat constructor; cbn [fst snd]; try apply b1_lt; try assumption; reflexivity. }
  set (w := header _ _ _).
  assert (E : w = pack parts).
  { unfold w, header, parts. cbn [pack fst snd wid]. rewrite AM at 1. powers. lia. }
  clearbody w. subst w.
  assert (T : field 64 (pack parts) 36 55 = 0xABCDF) by (eapply (pack_field _ 4); [exact F|reflexivity|reflexivity|reflexivity|lia|lia]).
  assert (K2 : field 64 (pack parts) 34 35 = 2) by (eapply (pack_field _ 3); [exact F|reflexivity|reflexivity|reflexivity|lia|lia]).
  split; [|split; [|exact T]].
  - unfold decode_info10. rewrite !bits_field by lia. rewrite T, K2.
    change (negb (703711 =? 703711)) with false. change (negb (2 =? REC_TYPE_INST)) with false. cbv iota.
    assert (B1 : bit (pack parts) 32 = t_branch i).
    { apply bit_b1; [lia|]. eapply (pack_field _ 1); [exact F|reflexivity|reflexivity|reflexivity|lia|lia]. }
    assert (B2 : bit (pack parts) 33 = here (t_prefix i)).
    { apply bit_b1; [lia|]. eapply (pack_field _ 2); [exact F|reflexivity|reflexivity|reflexivity|lia|lia]. }
    assert (F0 : field 64 (pack parts) 0 31 = t_raw i) by (eapply (pack_field _ 0); [exact F|reflexivity|reflexivity|reflexivity|lia|lia]).
    assert (F5 : field 64 (pack parts) 56 61 = A mod 256 / 4) by (eapply (pack_field _ 5); [exact F|reflexivity|reflexivity|reflexivity|lia|lia]).
    assert (F6 : field 64 (pack parts) 62 63 = kind10 i) by (eapply (pack_field _ 6); [exact F|reflexivity|reflexivity|reflexivity|lia|lia]).
    rewrite B1, B2, F0, F5, F6, <- AM. unfold info10_of. f_equal. clear - LEN. unfold kind10.
    destruct (t_esid i).
    + rewrite LEN. reflexivity.
    + destruct (length (t_data i)) as [|[|[|n]]]; try reflexivity. lia.
  - unfold rec_type. rewrite !bits_field by lia. rewrite T, K2. reflexivity.
Qed.

Definition data_of (full : bool) (i : insn10) : Htm_Model.data10 :=
  let n := length (t_data i) in
  if full then mk_data10 (option_map (fun p => field 64 (snd p) 0 31) (t_prefix i)) n n
                 (if t_esid i then [] else map dea10 (t_data i)) (if t_esid i then [] else map dra10 (t_data i))
  else mk_data10 None 0 0 [] [].

Section DATA.
  Variable full bad : bool.
  Variable stale : Z -> list N.
  Variable nwords : nat.
  Variable J : qrec -> Prop.
  Hypothesis stale_len : forall z, length (stale z) = 8%nat.
  Hypothesis small : (Z.of_nat nwords <= 2 ^ 30)%Z.
  Notation R10 := (R10 bad nwords J).

  Definition pair_words (l : list (sword * sword)) : list sword := flat_map (fun p => [fst p; snd p]) l.
  Lemma dra10_ok : forall p, decode_dra10 (snd (snd p)) = dra10 p.
  Proof.
    intros p. unfold decode_dra10, dra10. rewrite bits_field by lia. apply N.mod_small.
    pose proof (field_lt 64 (snd (snd p)) 0 40) as X. change (2 ^ (40 - 0 + 1)) with (2 ^ 41) in X.
    apply N.lt_le_trans with (2 ^ 41 * 2 ^ 12); [apply N.mul_lt_mono_pos_r; [reflexivity|exact X]|discriminate].
  Qed.
  Lemma run_data_loop : forall esid l d rest a x s B (k : option Htm_Model.data10 -> H B) Q,
    R10 (words_of (pair_words l ++ rest)) a x s -> Forall sword_ok (pair_words l) ->
    (esid = true -> Forall (fun p => untagged (snd (fst p)) /\ untagged (snd (snd p))) l) ->
    (forall s', R10 (words_of rest) (st_ext full (stamps_of (pair_words l)) a) x s' ->
       wp (k (Some (mk_data10 (b_prefix d) (b_dea d) (b_dra d)
                      (b_deas d ++ if esid then [] else map dea10 l)
                      (b_dras d ++ if esid then [] else map dra10 l)))) Q s') ->
    wp (hbind (data_loop stale full esid (length l) d) k) Q s.
  Proof.
    intros esid. induction l as [|p l IH]; intros d rest a x s B k Q RS SO U K.
    - cbn [length data_loop map pair_words flat_map app stamps_of] in *. rewrite st_ext_nil in K. apply wp_retb.
      replace d with (mk_data10 (b_prefix d) (b_dea d) (b_dra d) (b_deas d ++ (if esid then [] else []))
                      (b_dras d ++ (if esid then [] else []))) by (destruct d, esid; cbn; rewrite !app_nil_r; reflexivity).
      apply K, RS.
    - cbn [length data_loop pair_words flat_map app] in *. inversion SO as [|? ? O1 SO']; subst. inversion SO' as [|? ? O2 SO2]; subst.
      apply wp_assoc. eapply fetch10; [exact stale_len|exact small|exact RS|exact O1|]. clear s RS. intros s RS.
      assert (UT : esid = true -> tagged (snd (fst p)) = false /\ tagged (snd (snd p)) = false).
      { intros E. specialize (U E). inversion U as [|? ? [U1 U2] _]; subst. split; apply untagged_false; assumption. }
      assert (U' : esid = true -> Forall (fun p => untagged (snd (fst p)) /\ untagged (snd (snd p))) l).
      { intros E. specialize (U E). inversion U; assumption. }
      replace (esid && tagged (snd (fst p))) with false by (destruct esid; [destruct (UT eq_refl) as [-> _]|]; reflexivity).
      apply wp_assoc. eapply fetch10; [exact stale_len|exact small|exact RS|exact O2|]. clear s RS. intros s RS.
      rewrite st_ext_app in RS.
      assert (ST : stamps_of (fst p :: snd p :: pair_words l) = (fst (fst p) ++ fst (snd p)) ++ stamps_of (pair_words l)).
      { unfold stamps_of. cbn [flat_map]. rewrite app_assoc. reflexivity. }
      destruct esid.
      + destruct (UT eq_refl) as [_ ->]. eapply IH; [exact RS|exact SO2|exact U'|]. clear s RS. intros s RS.
        rewrite st_ext_app, <- ST in RS. apply K, RS.
      + eapply IH; [exact RS|exact SO2|exact U'|]. clear s RS. intros s RS.
        rewrite st_ext_app, <- ST in RS. cbn [b_prefix b_dea b_dra b_deas b_dras]. rewrite dra10_ok, <- !app_assoc.
        apply K, RS.
  Qed.

End DATA.

Section DATA2.
  Variable bad : bool.
  Variable stale : Z -> list N.
  Variable nwords : nat.
  Variable J : qrec -> Prop.
  Hypothesis stale_len : forall z, length (stale z) = 8%nat.
  Hypothesis small : (Z.of_nat nwords <= 2 ^ 30)%Z.
  Notation R10 := (R10 bad nwords J).
  Lemma run_data : forall (full : bool) i A rest a x s B (k : option Htm_Model.data10 -> H B) Q,
    R10 (words_of ((prefix_words i ++ pair_words (t_data i)) ++ rest)) a x s ->
    Forall sword_ok (prefix_words i ++ pair_words (t_data i)) ->
    (t_esid i = true -> Forall (fun p => untagged (snd (fst p)) /\ untagged (snd (snd p))) (t_data i)) ->
    (full = false -> (length (t_data i) <= 1)%nat) ->
    (forall s', R10 (words_of rest) (st_ext full (stamps_of (prefix_words i ++ pair_words (t_data i))) a) x s' ->
       wp (k (Some (data_of full i))) Q s') ->
    wp (hbind (data_words stale full (info10_of i A)) k) Q s.
  Proof.
    intros full i A rest a x s B k Q RS SO U LF K. unfold data_words. cbn [info10_of j_prefix j_data j_esid].
    rewrite stamps_app in K. rewrite <- app_assoc in RS. apply Forall_app in SO as [SP SD].
    assert (TAIL : forall s1 a1, R10 (words_of (pair_words (t_data i) ++ rest)) a1 x s1 ->
       (forall s', R10 (words_of rest) (st_ext full (stamps_of (pair_words (t_data i))) a1) x s' ->
          wp (k (Some (data_of full i))) Q s') ->
       wp (hbind (let d := mk_data10 (if full then option_map (fun p => field 64 (snd p) 0 31) (t_prefix i) else None)
                             (length (t_data i)) (length (t_data i)) [] [] in
         if full then data_loop stale full (t_esid i) (length (t_data i)) d
         else match length (t_data i) with
              | O => hret (Some d)
              | S _ => w <-- htm_decode_fetch stale full ;;
                 match w with None => hret None | Some _ =>
                   w2 <-- htm_decode_fetch stale full ;;
                   match w2 with None => hret None | Some _ =>
                     hret (Some (mk_data10 (if full then option_map (fun p => field 64 (snd p) 0 31) (t_prefix i) else None) 0 0 [] [])) end end
              end) k) Q s1).
    { intros s1 a1 RS1 K1. cbv zeta. destruct full.
      - eapply run_data_loop; [exact stale_len|exact small|exact RS1|exact SD|exact U|]. clear s1 RS1. intros s1 RS1.
        cbn [b_prefix b_dea b_dra b_deas b_dras app]. exact (K1 s1 RS1).
      - specialize (LF eq_refl). unfold data_of in K1. destruct (t_data i) as [|p [|p2 l]]; cbn [length] in *; [| |lia].
        + apply wp_retb. apply K1. cbn [pair_words flat_map stamps_of app] in *. rewrite st_ext_nil. exact RS1.
        + cbn [pair_words flat_map app] in *. inversion SD as [|? ? O1 SO']; subst. inversion SO' as [|? ? O2 SO2]; subst.
          apply wp_assoc. eapply (fetch10 false); [exact stale_len|exact small|exact RS1|exact O1|]. clear s1 RS1. intros s1 RS1.
          apply wp_assoc. eapply (fetch10 false); [exact stale_len|exact small|exact RS1|exact O2|]. clear s1 RS1. intros s1 RS1.
          apply wp_retb. apply K1. rewrite st_ext_app in RS1. unfold stamps_of. cbn [flat_map]. rewrite app_nil_r. exact RS1. }
    destruct (t_prefix i) as [p|] eqn:EP; cbn [here].
    - unfold prefix_words in *. rewrite EP in *. cbn [app] in *. inversion SP as [|? ? O1 _]; subst.
      apply wp_assoc. apply wp_assoc.
      eapply fetch10; [exact stale_len|exact small|exact RS|exact O1|]. clear s RS. intros s RS. apply wp_retb.
      replace (if full then Some (bits (snd p) 0 31) else None) with
        (if full then option_map (fun p => field 64 (snd p) 0 31) (Some p) else None)
        by (cbn [option_map]; rewrite bits_field by lia; reflexivity).
      eapply TAIL; [exact RS|]. intros s' RS'. apply K. rewrite st_ext_app in RS'.
      unfold stamps_of at 1. cbn [flat_map]. rewrite app_nil_r. exact RS'.
    - unfold prefix_words in *. rewrite EP in *. cbn [app] in *. apply wp_assoc, wp_retb.
      replace (@None N) with (if full then option_map (fun p => field 64 (snd p) 0 31) (@None sword) else None) by (destruct full; reflexivity).
      eapply TAIL; [exact RS|]. exact K.
  Qed.
End DATA2.
