(** Proofs for C56: the record of an instruction. *)
Require Import NArith ZArith List Bool Lia.
Require Import ZifyBool ZifyN ZifyNat.
Require Import Verif.Word Verif.Codec_Types Verif.HtmBits_Model Verif.HtmBits_Spec Verif.HtmBits_Proofs.
Require Import Verif.Branch_Model Verif.Branch_Spec Verif.Branch_Proofs.
Require Import Verif.Pwc_Model Verif.Pwc_Spec Verif.Pwc_Proofs Verif.Xlate_Model Verif.Xlate_Spec Verif.Xlate_Proofs Verif.Xlate_Full.
Require Import Verif.Htm_Model Verif.Trace_Spec Verif.Trace_Proofs Verif.Trace8_Proofs Verif.Trace8_Proofs2 Verif.Trace8_Proofs3.
Require Import Verif.Trace10_Spec Verif.Trace10_Proofs Verif.Trace10_Proofs2 Verif.Trace10_Proofs3 Verif.Trace10_Proofs4.
Require Verif.Tlb_Model Verif.Tlb_Spec Verif.Tlb_Proofs Verif.Bb_Model Verif.Bb_Spec Verif.Bb_Proofs.
Import ListNotations.
Local Open Scope N_scope.

Definition Zinv (tb : option Resume_Spec.tables) (z : st10) (x : aux) : Prop :=
  ax_real x = z_ra z /\ cur_of x = z_cur z /\ ax_rpt x = z_walks z /\ XI tb (z_asked z) (z_seen z) x /\ tr_ok (z_cur z)
  /\ (z_walks z = false -> z_seen z = [] /\ z_cur z = no_trans)
  /\ z_ea z < 2 ^ 64 /\ z_ra z < 2 ^ 64 /\ z_ra z mod 4096 = 0.

Lemma line_lt : forall i prev, prev < 2 ^ 64 -> t_off i < 32 -> addr10 i prev < 2 ^ 64.
Proof.
  intros i prev P O. unfold addr10, line10.
  assert (X : forall q, q < 2 ^ 57 -> q * 128 + 4 * t_off i < 2 ^ 64).
  { intros q Q. change (2 ^ 64) with (2 ^ 57 * 128). lia. }
  destruct (t_addr i) as [[[h av] rv]|]; apply X.
  - exact (field_lt 64 (snd av) 0 56).
  - apply N.div_lt_upper_bound; [discriminate|]. exact P.
Qed.
Lemma page_lt : forall i prev, prev < 2 ^ 64 -> prev mod 4096 = 0 -> page10 i prev < 2 ^ 64 /\ page10 i prev mod 4096 = 0.
Proof.
  intros i prev P A. unfold page10. destruct (t_addr i) as [[[h av] rv]|]; [|split; assumption].
  split; [|apply N.mod_mul; discriminate]. pose proof (field_lt 64 (snd rv) 0 39) as X. change (2 ^ (39 - 0 + 1)) with (2 ^ 40) in X.
  apply N.lt_le_trans with (2 ^ 40 * 4096); [apply N.mul_lt_mono_pos_r; [reflexivity|exact X]|discriminate].
Qed.
Lemma no_walks : forall i z, walks10 i z = false -> z_seen z = [] -> z_cur z = no_trans ->
  seen_i i z = [] /\ cur10 i z = no_trans /\ seen10 i z = [] /\ dtrans10 i z = no_trans
  /\ asked10 i z = asked_i i z.
Proof.
  intros i z W N1 N2. unfold walks10 in W. apply orb_false_iff in W as [_ W].
  assert (L1 : t_ixl i = []) by (destruct (t_ixl i); [reflexivity|discriminate]).
  assert (L2 : t_dxl i = []) by (rewrite L1 in W; destruct (t_dxl i); [reflexivity|discriminate]).
  assert (G0 : i_given i z = None) by (unfold i_given; rewrite L1; destruct (t_addr i); reflexivity).
  assert (T0 : forall hv reloc a r, fst (translate [] hv reloc None a r) = [] /\ or_none (snd (translate [] hv reloc None a r)) = no_trans).
  { intros [] ? ? ?; split; reflexivity. }
  assert (D0 : forall p, d_trans i [] p = translate [] (t_hv i) (t_dr i) None (dea10 p) (dra10 p)).
  { intros p. unfold d_trans, d_given. rewrite L2. reflexivity. }
  assert (S0 : seen_i i z = []).
  { unfold seen_i, i_trans. rewrite G0, N1. destruct (t_addr i); [apply T0|reflexivity]. }
  split; [exact S0|]. split; [|split; [|split]].
  - unfold cur10, i_trans. rewrite G0, N1, N2. destruct (t_addr i); [apply T0|]. unfold no_trans. cbn [N.eqb negb].
    rewrite andb_false_r. reflexivity.
  - unfold seen10. rewrite S0. destruct (t_esid i); [reflexivity|].
    generalize (t_data i). induction l as [|p l IH]; [reflexivity|]. cbn [fold_left]. rewrite D0. rewrite (proj1 (T0 _ _ _ _)). exact IH.
  - unfold dtrans10. destruct (data10 i); [|reflexivity]. rewrite S0, D0. apply T0.
  - unfold asked10. destruct (t_esid i); [reflexivity|]. generalize (asked_i i z). generalize (t_data i).
    induction l as [|p l IH]; intros a; [reflexivity|]. cbn [fold_left].
    replace (asked_d i a p) with a; [apply IH|]. unfold asked_d, d_given. rewrite L2. reflexivity.
Qed.

Definition whole10 (i : insn10) (z : st10) (w : N) : erec :=
  EInsn10 w (ea10 i z) (if t_esid i then None else real10 (cur10 i z) (ea10 i z) (ra10 i z))
    (option_map dea10 (data10 i))
    match data10 i with Some p => real10 (dtrans10 i z) (dea10 p) (dra10 p) | None => None end
    (t_branch i = true
      \/ In (t_insn i) [0x4c0000a4; 0x4c000024; 0x4c000224; 0x44000002; 0x44000022]
      \/ field 32 (t_insn i) 0 19 = 0x44000 /\ ibm_bit 32 (t_insn i) 31 = true)
    (isa_bo_branch w /\ ~ isa_BO_always w) (guest10 (cur10 i z)) (guest10 (dtrans10 i z))
    (if t_esid i then None else walk10 (cur10 i z)) (walk10 (dtrans10 i z)).
Lemma record_of10_eq : forall i z, record_of10 i z =
  match t_prefix i with
  | None => [whole10 i z (t_insn i)]
  | Some p => [whole10 i z (field 64 (snd p) 0 31);
       EInsn10 (t_insn i) ((ea10 i z + 4) mod 2 ^ 64) None None None False False None None None None]
  end.
Proof. reflexivity. Qed.
Lemma suffix_tells : forall w a, w < 2 ^ 32 -> 
  tells (EInsn10 w ((a + 4) mod 2 ^ 64) None None None False False None None None None) (RInsn (suffix_record w (add64 a 4))).
Proof.
  intros w a W. unfold tells, suffix_record. cbn.
  repeat split; try reflexivity; try (intros X; discriminate X); try contradiction.
Qed.

Lemma real10_ok : forall rec h g a r, tr_ok (rec, h, g) -> r mod 4096 = 0 -> same_place (rec, h, g) a r ->
  h <> 0 -> N.lor r (N.land a (2 ^ h - 1)) = r + a mod 4096.
Proof.
  intros rec h g a r T R0 SP H0. apply real_lor; [exact R0| |].
  - destruct T as [T|(_ & T & _)]; [contradiction|]. apply shift_nz, T.
  - destruct SP as [SP|SP]; [contradiction|exact SP].
Qed.

Lemma record10_tells : forall i z q w rec hps gps drec dhps dgps,
  cur10 i z = (rec, hps, gps) -> dtrans10 i z = (drec, dhps, dgps) ->
  tr_ok (cur10 i z) -> tr_ok (dtrans10 i z) -> w < 2 ^ 32 -> ra10 i z mod 4096 = 0 ->
  (if t_esid i then length (t_data i) = 1%nat else (length (t_data i) <= 2)%nat) ->
  (t_esid i = true -> cur10 i z = no_trans) ->
  (t_esid i = false -> same_place (cur10 i z) (ea10 i z) (ra10 i z)) ->
  match data10 i with Some p => same_place (dtrans10 i z) (dea10 p) (dra10 p) | None => True end ->
  tells (whole10 i z w)
    (RInsn (record10 q (t_esid i) (t_branch i || is_system_branch (t_insn i)) w (ea10 i z) (ra10 i z)
              rec hps gps (data_of true i) drec dhps dgps)).
Proof.
  intros i z q w rec hps gps drec dhps dgps E1 E2 T1 T2 W AL LEN ES SP DP. unfold whole10.
  rewrite E1, E2 in *. unfold tells, record10.
  cbn [q_insn q_insn_addr q_insn_ra_valid q_insn_ra q_insn_ps_valid q_insn_ps q_data_addr_valid q_data_addr
       q_data_ra_valid q_data_ra q_data_ps_valid q_data_ps q_branch q_cond q_ginsn_ps_valid q_ginsn_ps
       q_gdata_ps_valid q_gdata_ps q_radix_insn q_radix_data].
  split; [reflexivity|]. split; [reflexivity|].
  assert (DT : data10 i = None -> drec = zero_radix /\ dhps = 0 /\ dgps = 0).
  { intros D. unfold dtrans10 in E2. rewrite D in E2. injection E2 as <- <- <-. repeat split. }
  assert (DD : match data10 i with
               | None => b_dea (data_of true i) = 0%nat \/ t_esid i = true
               | Some p => t_esid i = false /\ b_dea (data_of true i) <> 0%nat /\ b_dra (data_of true i) <> 0%nat
                           /\ zth (b_deas (data_of true i)) 0 = dea10 p /\ zth (b_dras (data_of true i)) 0 = dra10 p
               end).
  { unfold data10, data_of. cbn [b_dea b_dra b_deas b_dras]. destruct (t_esid i); [right; reflexivity|].
    destruct (t_data i) as [|p l]; cbn; [left; reflexivity|]. repeat split; discriminate. }
  unfold real10, guest10, walk10.
  assert (I1 : known (if t_esid i then None else if hps =? 0 then None else Some (ra10 i z + ea10 i z mod 4096, hps))
     (negb (t_esid i) && negb (hps =? 0))
     (fun x : N * N => (if negb (t_esid i) && negb (hps =? 0) then N.lor (ra10 i z) (N.land (ea10 i z) (2 ^ hps - 1)) else q_insn_ra q) = fst x)).
  { destruct (t_esid i); cbn; [reflexivity|]. destruct (N.eqb_spec hps 0) as [H0|H0]; cbn [negb known fst]; [reflexivity|].
    split; [reflexivity|]. eapply real10_ok; [exact T1|exact AL|apply SP; reflexivity|exact H0]. }
  split; [exact I1|]. clear I1.
  split.
  { destruct (t_esid i); cbn; [reflexivity|]. destruct (hps =? 0); cbn; [reflexivity|]. split; reflexivity. }
  split.
  { destruct (data10 i) as [p|]; cbn [option_map known].
    - destruct DD as (D1 & D2 & D3 & D4 & D5). rewrite D1, D4. destruct (Nat.eqb_spec (b_dea (data_of true i)) 0); [contradiction|].
      split; reflexivity.
    - destruct DD as [D|D]; rewrite D; [|reflexivity]. destruct (t_esid i); reflexivity. }
  assert (DR : known match data10 i with Some p => if dhps =? 0 then None else Some (dra10 p + dea10 p mod 4096, dhps) | None => None end
     (negb (b_dra (data_of true i) =? 0)%nat && negb (t_esid i) && negb (dhps =? 0))
     (fun x : N * N => (if negb (b_dra (data_of true i) =? 0)%nat && negb (t_esid i) && negb (dhps =? 0)
        then N.lor (zth (b_dras (data_of true i)) 0)
                 (if negb (t_esid i) && negb (b_dea (data_of true i) =? 0)%nat
                  then N.land (zth (b_deas (data_of true i)) 0) (2 ^ dhps - 1) else 0)
        else q_data_ra q) = fst x)).
  { destruct (data10 i) as [p|].
    - destruct DD as (D1 & D2 & D3 & D4 & D5). rewrite D1, D4, D5.
      destruct (Nat.eqb_spec (b_dea (data_of true i)) 0); [contradiction|].
      destruct (Nat.eqb_spec (b_dra (data_of true i)) 0); [contradiction|]. cbn [negb andb].
      destruct (N.eqb_spec dhps 0) as [H0|H0]; cbn [negb known fst]; [reflexivity|].
      split; [reflexivity|]. eapply real10_ok; [exact T2|apply dra_lt|exact DP|exact H0].
    - destruct (DT eq_refl) as (_ & -> & _). cbn. apply andb_false_r. }
  split; [exact DR|]. clear DR.
  split.
  { destruct (data10 i) as [p|].
    - destruct DD as (D1 & D2 & D3 & D4 & D5). rewrite D1.
      destruct (Nat.eqb_spec (b_dra (data_of true i)) 0); [contradiction|]. cbn [negb andb].
      destruct (N.eqb_spec dhps 0) as [H0|H0]; cbn [negb known snd]; [reflexivity|]. split; reflexivity.
    - destruct (DT eq_refl) as (_ & -> & _). cbn. apply andb_false_r. }
  split. { rewrite orb_true_iff, system_branch. reflexivity. }
  split. { apply cond_spec. exact W. }
  split. { destruct (gps =? 0); cbn; [reflexivity|]. split; reflexivity. }
  split. { destruct (dgps =? 0); cbn; [reflexivity|]. split; reflexivity. }
  split.
  { destruct (t_esid i); cbn; [exact I|]. destruct (hps =? 0); cbn; [exact I|]. reflexivity. }
  destruct (N.eqb_spec dhps 0) as [H0|H0]; [exact I|]. 
  destruct (data10 i) as [p|]; [|destruct (DT eq_refl) as (_ & X & _); contradiction].
  destruct DD as (D1 & D2 & D3 & D4 & D5). rewrite D1. destruct (Nat.eqb_spec (b_dra (data_of true i)) 0); [contradiction|]. reflexivity.
Qed.

Section DONE10.
  Variable junk : Z -> qrec.
  Variable bad : bool.
  Variable nwords : nat.
  Variable J : qrec -> Prop.
  Variable tb : option Resume_Spec.tables.
  Hypothesis HT : tables_good tb.
  Hypothesis J10 : forall n esid branch insn addr real rec hps gps d drec dhps dgps,
    J (record10 (junk n) esid branch insn addr real rec hps gps d drec dhps dgps).
  Hypothesis JS : forall insn addr, J (suffix_record insn addr).
  Notation R10 := (R10 bad nwords J).

  Definition prev10 (full : bool) (i : insn10) (z : st10) (a : abs) : N * bool :=
    if full then (ea10 i z, t_branch i || is_system_branch (t_insn i)) else ab_prev a.
  Definition after10 (full : bool) (i : insn10) (z : st10) (a : abs) (outs : list erec) (evs : list event) : abs :=
    mk_abs (ea10 i z) (ab_ops a) (ab_log a ++ [(ea10 i z, t_insn i)]) (ab_ea a ++ [ea10 i z])
      (ab_out a ++ outs) (ab_cnt a ++ evs) (prev10 full i z a).
  Lemma out10 : forall e q ws a x s, R10 ws a x s -> tells e (RInsn q) -> J q -> R10 ws (ext a [e] []) x (add_out (RInsn q) s).
  Proof.
    intros e q ws a x s [[C S1] AX] T JQ. split; [|exact AX]. split; [exact C|].
    unfold ext. rewrite app_nil_r. apply sim_out; [assumption|]. split; [exact T|]. intros q' E. injection E as <-. exact JQ.
  Qed.

  Lemma run_done10 : forall full i z a x ws s (Q : Z -> hst -> Prop),
    R10 ws a x s -> Zinv tb (mk_st10 (z_ea z) (z_ra z) (walks10 i z) (z_seen z) (z_cur z) (z_asked z)) x ->
    ab_addr a = z_ea z -> (z_walks z = false -> z_seen z = [] /\ z_cur z = no_trans) ->
    insn10_ok i z tb full -> N.of_nat (length (ab_ea a)) < 2 ^ 30 ->
    (forall s' x', R10 ws (after10 full i z a (if full then record_of10 i z else [])
                            (if full && walks10 i z then i_events i z ++ d_events i z else [])) x' s' ->
       Zinv tb (next10 i z full) x' -> Q 0%Z s') ->
    wp (done10 junk full (info10_of i (ea10 i z)) (decode_msr (snd (t_msr i)))
          (i_pre i z (map xlate_of (t_dxl i))) (data_of full i)) Q s.
  Proof.
    intros full i z a x ws s Q RS (I1 & I2 & I3 & I4 & I5 & I6 & I7 & I8 & I9) HA NW
      (SW & FST & SH & RAW & INS & OFF & HD & FX & FD & LX & LD & LEN & LFULL & SEG & LEFT & LEFTD & WALKS) LE K.
    cbn [z_ea z_ra z_walks z_seen z_cur z_asked] in *.
    assert (EA : ea10 i z < 2 ^ 64) by (apply line_lt; assumption).
    destruct (page_lt i (z_ra z) I8 I9) as [RA RA0].
    change (page10 i (z_ra z)) with (ra10 i z) in *.
    unfold done10.
    (* position *)
    assert (POS : forall s1 x1, R10 ws (mk_abs (match t_addr i with Some _ => line10 i (z_ea z) | None => z_ea z end)
          (ab_ops a) (ab_log a) (ab_ea a) (ab_out a) (ab_cnt a) (ab_prev a)) x1 s1 ->
        x1 = mk_aux (ra10 i z) (ax_radix x) (ax_hps x) (ax_gps x) (ax_rpt x) (ax_x x) ->
        wp (addr0 <-- hget h_addr ;;
            let addr := N.lor (N.ldiff addr0 0x7f) (j_eabits (info10_of i (ea10 i z))) in
            _ <-- hset (set_addr addr) ;;
            match insn_word insn_demunge_p10 (j_branch (info10_of i (ea10 i z))) (j_opcode (info10_of i (ea10 i z))) addr with
            | None => hret (-1)%Z
            | Some insn =>
                _ <-- hset (set_insn insn) ;;
                bb <-- hget h_bb ;;
                match Bb_Model.bb_ea_log bb addr with
                | Bb_Model.BErr e => herror (HBb e)
                | Bb_Model.BOk bb' =>
                    _ <-- hset (set_bb bb') ;;
                    _ <-- hset (add_log (addr, insn)) ;;
                    if negb full then hret 0%Z
                    else
                      let branch := j_branch (info10_of i (ea10 i z)) || is_system_branch insn in
                      _ <-- hset (set_prev addr branch) ;;
                      _ <-- insn_side (i_pre i z (map xlate_of (t_dxl i))) (decode_msr (snd (t_msr i))) ;;
                      rpt <-- hget h_rpt ;;
                      w0 <-- (if rpt && negb (b_dea (data_of full i) =? 0)%nat
                              then data_side true (map xlate_of (t_dxl i)) (decode_msr (snd (t_msr i))) (zth (b_deas (data_of full i)) 0) (zth (b_dras (data_of full i)) 0)
                              else hret (zero_radix, 0, 0)) ;;
                      _ <-- (if rpt && (b_dea (data_of full i) =? 2)%nat
                             then data_side false (map xlate_of (t_dxl i)) (decode_msr (snd (t_msr i))) (zth (b_deas (data_of full i)) 1) (zth (b_dras (data_of full i)) 1)
                             else hret (zero_radix, 0, 0)) ;;
                      _ <-- (if rpt && (b_dea (data_of full i) =? 0)%nat then partial_insert_all (map xlate_of (t_dxl i)) else hret tt) ;;
                      let '(drec, dhps, dgps) := w0 in
                      real <-- hget h_real ;;
                      rec <-- hget h_radix ;;
                      hps <-- hget h_hps ;;
                      gps <-- hget h_gps ;;
                      nr <-- hget (fun s => c_nr (h_cur s)) ;;
                      let first := match b_prefix (data_of full i) with Some w => w | None => insn end in
                      _ <-- hset (add_out (RInsn (record10 (junk nr) (j_esid (info10_of i (ea10 i z))) branch first addr real
                                                           rec hps gps (data_of full i) drec dhps dgps))) ;;
                      _ <-- match b_prefix (data_of full i) with
                            | Some _ => hset (add_out (RInsn (suffix_record insn (add64 addr 4))))
                            | None => hret tt
                            end ;;
                      hret 0%Z
                end
            end) Q s1).
    { clear s RS. intros s x1 RS EX. apply wp_get.
      assert (E0 : h_addr s = match t_addr i with Some _ => line10 i (z_ea z) | None => z_ea z end) by apply RS.
      rewrite E0. cbn [info10_of j_eabits j_branch j_opcode j_esid].
      assert (EE : N.lor (N.ldiff (match t_addr i with Some _ => line10 i (z_ea z) | None => z_ea z end) 0x7f) (ea10 i z mod 256) = ea10 i z).
      { rewrite line_mask. 
        assert (LL : match t_addr i with Some _ => line10 i (z_ea z) | None => z_ea z end / 128 * 128 = line10 i (z_ea z)).
        { unfold line10. destruct (t_addr i) as [[[h av] rv]|]; [|reflexivity]. rewrite N.div_mul by discriminate. reflexivity. }
        rewrite LL. unfold ea10, addr10.
        assert (L2 : exists q, line10 i (z_ea z) = q * 128) by (unfold line10; destruct (t_addr i) as [[[h av] rv]|]; eexists; reflexivity).
        destruct L2 as [q L2]. rewrite L2. apply addr_join. lia. }
      rewrite EE. clear E0 EE. cbv zeta. apply wp_set.
      rewrite (shown10_word (ea10 i z) _ _ _ EA SH). apply wp_set, wp_get.
      assert (SB : Bb_Model.bb_run (ab_ea a) = Bb_Model.BOk (h_bb s)) by apply RS.
      change (h_bb (set_insn (t_insn i) (set_addr (ea10 i z) s))) with (h_bb s).
      destruct (bb_snoc _ (ea10 i z) _ SB LE) as (bb' & B1 & B2). rewrite B1. apply wp_set, wp_set.
      set (s1 := add_log _ _).
      set (a1 := mk_abs (ea10 i z) (ab_ops a) (ab_log a ++ [(ea10 i z, t_insn i)]) (ab_ea a ++ [ea10 i z]) (ab_out a) (ab_cnt a) (ab_prev a)).
      assert (RS1 : R10 ws a1 x1 s1).
      { destruct RS as [[C (S1 & S2 & S3 & S4 & S5 & S6 & S7)] AX]. split; [|exact AX]. split; [exact C|].
        repeat split; try assumption. cbn. cbn in S4. rewrite S4. reflexivity. }
      clearbody s1. clear s RS SB B1 B2 bb'. rename s1 into s. rename RS1 into RS.
      assert (X1 : ax_real x1 = ra10 i z /\ ax_rpt x1 = walks10 i z /\ cur_of x1 = z_cur z /\ XI tb (z_asked z) (z_seen z) x1).
      { rewrite EX. repeat split; try assumption; apply I4. }
      destruct X1 as (X1 & X2 & X3 & X4).
      destruct full eqn:FU; cbn [negb].
      2:{ apply wp_ret, (K s x1). { unfold after10. cbn [andb]. rewrite !app_nil_r. exact RS. }
          unfold next10, Zinv. cbn [z_ea z_ra z_walks z_seen z_cur z_asked].
          split; [exact X1|]. split; [exact X3|]. split; [exact X2|]. split; [exact X4|]. split; [exact I5|].
          split; [exact I6|]. split; [exact EA|]. split; assumption. }
      apply wp_set. 
      set (a2 := mk_abs (ab_addr a1) (ab_ops a1) (ab_log a1) (ab_ea a1) (ab_out a1) (ab_cnt a1) (prev10 true i z a)).
      assert (RS2 : R10 ws a2 x1 (set_prev (ea10 i z) (t_branch i || is_system_branch (t_insn i)) s)).
      { destruct RS as [[C (S1 & S2 & S3 & S4 & S5 & S6 & S7)] AX]. split; [|exact AX]. split; [exact C|].
        repeat split; assumption. }
      set (s1 := set_prev _ _ s) in *. clearbody s1. clear s RS. rename s1 into s. rename RS2 into RS.
      destruct (WALKS eq_refl) as (W1 & W2 & W3 & W4). clear WALKS.
      eapply (run_insn_side bad nwords J tb HT); [exact RS|reflexivity|exact X1|exact X2|exact X3|exact X4|exact I5|exact I6|exact FX|exact W1|exact EA|exact RA|exact RA0|].
      clear s RS. intros s x2 RS Y1 Y2 Y3 Y4 TC. apply wp_get.
      assert (ER : h_rpt s = walks10 i z) by (destruct RS as [_ <-]; rewrite <- X2, <- Y2; reflexivity). rewrite ER. clear ER.
      (* the records *)
      assert (FIN : forall s' st h hist, R10 ws (ext a2 [] (if walks10 i z then i_events i z ++ d_events i z else [])) (with_x st x2) s' ->
        XI tb hist h (with_x st x2) -> seen10 i z = h -> asked10 i z = hist -> tr_ok (dtrans10 i z) ->
        wp (let '(drec, dhps, dgps) := dtrans10 i z in
            real <-- hget h_real ;;
            rec <-- hget h_radix ;;
            hps <-- hget h_hps ;;
            gps <-- hget h_gps ;;
            nr <-- hget (fun s => c_nr (h_cur s)) ;;
            _ <-- hset (add_out (RInsn (record10 (junk nr) (t_esid i) (t_branch i || is_system_branch (t_insn i))
                     match b_prefix (data_of true i) with Some w => w | None => t_insn i end (ea10 i z) real
                                                 rec hps gps (data_of true i) drec dhps dgps))) ;;
            _ <-- match b_prefix (data_of true i) with
                  | Some _ => hset (add_out (RInsn (suffix_record (t_insn i) (add64 (ea10 i z) 4))))
                  | None => hret tt
                  end ;;
            hret 0%Z) Q s').
      { clear s RS. intros s st h hist RS HX HS HH TD. destruct (dtrans10 i z) as [[drec dhps] dgps] eqn:ED.
        apply wp_get, wp_get, wp_get, wp_get, wp_get.
        assert (E1 : h_real s = ra10 i z) by (destruct RS as [_ AX]; apply (f_equal ax_real) in AX; cbn in AX; congruence).
        assert (E2 : (h_radix s, h_hps s, h_gps s) = cur10 i z).
        { rewrite <- Y3. destruct RS as [_ AX]. unfold cur_of. 
          pose proof (f_equal ax_radix AX) as A1. pose proof (f_equal ax_hps AX) as A2. pose proof (f_equal ax_gps AX) as A3.
          cbn in A1, A2, A3. congruence. }
        rewrite E1.
        assert (TELL : forall w, w < 2 ^ 32 -> tells (whole10 i z w)
          (RInsn (record10 (junk (c_nr (h_cur s))) (t_esid i) (t_branch i || is_system_branch (t_insn i)) w (ea10 i z) (ra10 i z)
             (h_radix s) (h_hps s) (h_gps s) (data_of true i) drec dhps dgps))).
        { intros w W. apply record10_tells; try assumption.
          - symmetry. exact E2.
          - rewrite ED. exact TD.
          - intros ES. destruct (SEG ES) as [WF _]. destruct (I6 WF) as [N1 N2]. apply no_walks; assumption.
          - destruct (data10 i); [rewrite ED|]; exact W4. }
        assert (ZN : Zinv tb (next10 i z true) (with_x st x2)).
        { unfold Zinv, next10. cbn [z_ea z_ra z_walks z_seen z_cur z_asked]. rewrite HS, HH.
          split; [cbn; congruence|]. split; [exact Y3|]. split; [cbn; congruence|]. split; [exact HX|]. split; [exact TC|].
          split; [|split; [exact EA|split; [exact RA|exact RA0]]].
          intros WF. destruct (I6 WF) as [N1 N2]. destruct (no_walks i z WF N1 N2) as (_ & NC & NS & _ & _).
          rewrite <- HS. split; assumption. }
        assert (OUT : forall outs s', R10 ws (ext (ext a2 [] (if walks10 i z then i_events i z ++ d_events i z else [])) outs []) (with_x st x2) s' ->
          outs = record_of10 i z -> wp (hret 0%Z) Q s').
        { intros outs s' RS' EO. apply wp_ret. eapply K; [|exact ZN]. rewrite ext_ext in RS'. rewrite app_nil_r in RS'. cbn [app] in RS'.
          rewrite <- EO. exact RS'. }
        rewrite record_of10_eq in OUT. unfold data_of. cbn [b_prefix].
        destruct (t_prefix i) as [p|]; cbn [option_map]; apply wp_set.
        - assert (PW : field 64 (snd p) 0 31 < 2 ^ 32) by exact (field_lt 64 (snd p) 0 31).
          pose proof (out10 _ _ _ _ _ _ RS (TELL _ PW) (J10 _ _ _ _ _ _ _ _ _ _ _ _ _)) as RS2. apply wp_set.
          pose proof (out10 _ _ _ _ _ _ RS2 (suffix_tells (t_insn i) (ea10 i z) INS) (JS _ _)) as RS3. rewrite ext_ext in RS3.
          eapply OUT; [exact RS3|reflexivity].
        - pose proof (out10 _ _ _ _ _ _ RS (TELL _ INS) (J10 _ _ _ _ _ _ _ _ _ _ _ _ _)) as RS2. apply wp_retb.
          eapply OUT; [exact RS2|reflexivity]. }
      assert (FDX : forall p, In p (t_data i) -> dea10 p < 2 ^ 64).
      { intros p IP. rewrite Forall_forall in SW. apply (SW (fst p)).
        unfold insn10_words. repeat (apply in_or_app; right). apply in_flat_map. exists p. split; [exact IP|left; reflexivity]. }
      unfold data_of at 1 2 3 4 5 6 7. cbn [b_dea b_deas b_dras].
      destruct (walks10 i z) eqn:WK; cbn [andb].
      - (* walks *)
        destruct (t_esid i) eqn:ES; [destruct (SEG eq_refl); discriminate|].
        pose proof (data10 i) as D0. unfold dtrans10, d_events, data10, seen10, asked10 in FIN. rewrite ES in FIN.
        assert (WX : with_x (ax_x x2) x2 = x2) by (destruct x2; reflexivity).
        destruct (t_data i) as [|p [|p2 [|]]] eqn:TD; cbn [length map Nat.eqb negb]; try (cbn in LEN; lia).
        + apply wp_retb, wp_retb.
          assert (DN : t_dxl i = []).
          { destruct (t_dxl i); [reflexivity|]. exfalso. apply LEFTD; [discriminate|reflexivity]. }
          rewrite DN. cbn [map partial_insert_all]. apply wp_retb. cbn [hd_error] in FIN. rewrite app_nil_r in FIN.
          eapply (FIN s (ax_x x2) (seen_i i z)); rewrite ?WX; [exact RS|exact Y4|reflexivity|reflexivity|exact no_trans_ok].
        + cbn [zth nth]. eapply (run_data_side bad nwords J tb HT i true (asked_i i z) (seen_i i z) p); [exact RS|exact Y4|exact FD|exact (proj1 W2)|apply FDX; left; reflexivity|].
          clear s RS. intros s st RS HX TR. rewrite ext_ext in RS. apply wp_retb, wp_retb. cbn [hd_error fold_left] in FIN.
          eapply FIN; [exact RS|exact HX|reflexivity|reflexivity|exact TR].
        + cbn [zth nth]. eapply (run_data_side bad nwords J tb HT i true (asked_i i z) (seen_i i z) p); [exact RS|exact Y4|exact FD|exact (proj1 W2)|apply FDX; left; reflexivity|].
          clear s RS. intros s st RS HX TR. rewrite ext_ext in RS.
          eapply (run_data_side bad nwords J tb HT i false _ _ p2); [exact RS|exact HX|exact FD| |apply FDX; right; left; reflexivity|].
          { exact (proj1 (proj2 W2)). }
          clear s RS. intros s st2 RS HX2 TR2. rewrite ext_nil in RS. apply wp_retb. cbn [hd_error fold_left] in FIN.
          eapply FIN; [exact RS|exact HX2|reflexivity|reflexivity|exact TR].
      - apply wp_retb, wp_retb, wp_retb. destruct (I6 eq_refl) as [N1 N2]. destruct (no_walks i z WK N1 N2) as (NI & NC & NS & ND & NA).
        assert (WX : with_x (ax_x x2) x2 = x2) by (destruct x2; reflexivity).
        rewrite ND in FIN. eapply (FIN s (ax_x x2) (seen_i i z)); rewrite ?WX; [exact RS|exact Y4|congruence|exact NA|exact no_trans_ok]. }
    cbn [i_pre a_ieara a_dxl]. destruct (t_addr i) as [[[hd av] rv]|] eqn:TA.
    - apply wp_assoc, wp_set, wp_set. eapply POS; [|reflexivity]. 
      pose proof (set_addr_R bad nwords J _ _ _ (field 64 (snd av) 0 56 * 128) (proj1 RS)) as RS'.
      unfold line10, ra10, page10. rewrite TA. split.
      + exact RS'.
      + destruct RS as [_ <-]. reflexivity.
    - apply wp_retb. eapply POS; [|reflexivity]. split.
      + rewrite <- HA. destruct RS as [RS _]. destruct a as [a0 a1' a2 a3 a4 a5 a6]. exact RS.
      + destruct RS as [_ ->]. unfold ra10, page10. rewrite TA. rewrite <- I1. destruct x; reflexivity.
  Qed.
End DONE10.
