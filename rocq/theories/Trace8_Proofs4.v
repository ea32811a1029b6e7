(** Proofs for C55: whole traces. *)
Require Import NArith ZArith List Bool Lia.
Require Import ZifyBool ZifyN ZifyNat.
Require Import Verif.Word Verif.Codec_Types Verif.HtmBits_Model Verif.HtmBits_Spec Verif.HtmBits_Proofs.
Require Import Verif.Htm_Model Verif.Trace_Spec Verif.Trace_Proofs Verif.Trace8_Proofs Verif.Trace8_Proofs2 Verif.Trace8_Proofs3 Verif.Flow_Spec.
Require Verif.Tlbdump_Proofs4 Verif.Tlb_Model Verif.Tlb_Spec Verif.Tlb_Proofs Verif.Bb_Model Verif.Bb_Spec Verif.Bb_Proofs.
Import ListNotations.
Local Open Scope N_scope.

Lemma field_zero : forall w a b, w = 0 -> field 64 w a b = 0.
Proof. intros w a b ->. unfold field. rewrite N.div_0_l; [apply N.mod_0_l|]; apply N.pow_nonzero; discriminate. Qed.
Lemma no_mixed_prefix : forall h h', Tlb_Spec.no_mixed_overlap (h ++ h') -> Tlb_Spec.no_mixed_overlap h.
Proof.
  intros h h' H a1 f1 r1 s1 a2 f2 r2 s2 I1 O1 I2 O2.
  apply (H a1 f1 r1 s1 a2 f2 r2 s2); try assumption; apply in_or_app; left; assumption.
Qed.
Lemma top_app : forall h pre h', Tlb_Spec.top_unused pre (h ++ h') <->
  Tlb_Spec.top_unused pre h /\ Tlb_Spec.top_unused (pre ++ h) h'.
Proof.
  induction h as [|o h IH]; intros pre h'.
  - cbn [app Tlb_Spec.top_unused]. rewrite app_nil_r. tauto.
  - assert (E : (pre ++ [o]) ++ h = pre ++ o :: h) by (rewrite <- app_assoc; reflexivity).
    destruct o; cbn [app Tlb_Spec.top_unused]; rewrite IH, E; tauto.
Qed.
Lemma addr_lt : forall i prev, insn8_ok i (addr8 i prev) -> addr8 i prev < 2 ^ 64.
Proof.
  intros i prev (_ & _ & _ & _ & _ & OI & _). unfold addr8. destruct (s_iea i) as [[l w]|].
  - destruct OI as (_ & (U & _) & _). pose proof (N.mul_div_le w 4 ltac:(discriminate)). lia.
  - apply N.mod_lt. discriminate.
Qed.
Lemma ops8_ok : forall i prev, insn8_ok i (addr8 i prev) -> Forall Tlb_Spec.op_ok (ops8 i (addr8 i prev)).
Proof.
  intros i prev OK. pose proof (addr_lt _ _ OK) as HA. destruct OK as (_ & _ & _ & _ & _ & OI & OR & _).
  unfold ops8. destruct (s_ira i) as [[l w]|] eqn:E.
  - constructor; [|constructor]. rewrite <- E in OR. exact (ira_op_ok i (addr8 i prev) l w E HA OR).
  - destruct (s_iea i) as [[l w]|] eqn:EI; [|constructor]. constructor; [|constructor]. split; [exact HA|].
    unfold reloc8. rewrite EI. intros O. assert (w mod 2 < 2) by (apply N.mod_lt; discriminate).
    destruct (w mod 2) as [|[| |]]; try discriminate; lia.
Qed.

Lemma words_pos : forall x, (1 <= length (words8 x))%nat.
Proof. intros []; cbn; lia. Qed.

(** ** The flow of a whole trace *)
Fixpoint flows (p : N * bool) (l : list visit) : list event :=
  match l with
  | [] => []
  | (a, lv) :: l' => flow p a ++ flows (a, lv || elsewhere (fst p) a) l'
  end.
Lemma count_cons : forall c x k l, count_of c ((x, k) :: l) = (if ctr_dec x c then k else 0) + count_of c l.
Proof. reflexivity. Qed.
Lemma flows_count : forall l p,
  count_of Interrupts (flows p l) = number (fun x => negb (snd x) && vector (fst x)) (landings (fst p) (snd p) l) /\
  count_of BranchesAfterNonBranches (flows p l) = number (fun x => snd x) (landings (fst p) (snd p) l) /\
  forall c, counted c -> count_of c (flows p l) = 0.
Proof.
  induction l as [|[a lv] l IH]; intros p; [repeat split|]. cbn [flows landings].
  destruct (IH (a, lv || elsewhere (fst p) a)) as (I1 & I2 & I3). cbn [fst snd] in I1, I2.
  unfold flow. unfold number in *. split; [|split].
  - rewrite count_of_app, I1. destruct (elsewhere (fst p) a); [|reflexivity].
    cbn [app filter fst snd]. destruct (snd p); [reflexivity|]. cbn [negb andb]. destruct (vector a); [|reflexivity].
    rewrite count_cons. destruct (ctr_dec _ _) as [_|X]; [|congruence]. unfold count_of. cbn [length map fold_right]. lia.
  - rewrite count_of_app, I2. destruct (elsewhere (fst p) a); [|reflexivity].
    cbn [app filter fst snd]. destruct (snd p); [|destruct (vector a); reflexivity].
    rewrite count_cons. destruct (ctr_dec _ _) as [_|X]; [|congruence]. unfold count_of. cbn [length map fold_right]. lia.
  - intros c C. rewrite count_of_app, (I3 c C). destruct C as [C1 C2].
    destruct (elsewhere (fst p) a); [|reflexivity]. destruct (snd p); [|destruct (vector a); [|reflexivity]];
      rewrite count_cons; destruct (ctr_dec _ _) as [X|_]; try congruence; reflexivity.
Qed.
Lemma events_counted : forall full x e, In e (events8 full x) -> counted (fst e).
Proof.
  assert (D : forall c, c <> Interrupts -> c <> BranchesAfterNonBranches -> counted c) by (intros; split; assumption).
  assert (ST : forall r e, In e (stamp_events r) -> counted (fst e)).
  { intros r e. destruct r as [| | | | |[]|]; cbn; intros H; repeat (destruct H as [<-|H]; [apply D; discriminate|]); contradiction. }
  assert (SS : forall l e, In e (stamps_events l) -> counted (fst e)).
  { intros l e H. unfold stamps_events in H. apply in_flat_map in H as (p & _ & H). apply (ST _ _ H). }
  intros full [w r|i|w|w] e; cbn [events8].
  - apply ST.
  - unfold insn_events. intros H. repeat (apply in_app_or in H as [H|H]; [|]); try (apply SS in H; exact H).
    + cbn in H. repeat (destruct H as [<-|H]; [apply D; discriminate|]); contradiction.
    + destruct (s_ira i) as [[? ?]|], full, (s_esid i); cbn in H;
        repeat (destruct H as [<-|H]; [apply D; discriminate|]); contradiction.
    + destruct (s_dra i) as [[? ?]|], full, (s_esid i); cbn in H;
        repeat (destruct H as [<-|H]; [apply D; discriminate|]); contradiction.
  - intros H. cbn in H. repeat (destruct H as [<-|H]; [apply D; discriminate|]); contradiction.
  - contradiction.
Qed.
Lemma none_counted : forall c l, (forall e, In e l -> counted (fst e)) -> ~ counted c -> count_of c l = 0.
Proof.
  intros c l H N. induction l as [|[x k] l IH]; [reflexivity|]. rewrite count_cons, IH by (intros; apply H; right; assumption).
  destruct (ctr_dec x c) as [<-|_]; [|reflexivity]. exfalso. apply N. apply (H (x, k)). left. reflexivity.
Qed.

Section LOOP.
  Variable qs : Tlb_Model.qsort.
  Variable full bad : bool.
  Variable stale : Z -> list N.
  Variable junk : Z -> qrec.
  Variable nwords : nat.
  Variable J : qrec -> Prop.
  Hypothesis qs_ok : Tlb_Spec.sorter qs.
  Hypothesis stale_len : forall z, length (stale z) = 8%nat.
  Hypothesis small : (Z.of_nat nwords <= 2 ^ 30)%Z.
  Hypothesis J8 : forall n esid insn addr p, J (record8 (junk n) esid insn addr p).
  Notation R := (R bad nwords J).
  Notation Sim := (Sim J).

  Definition after (x : item8) (a : abs) : abs :=
    match x with
    | IStamp _ r => of_stamp full r a
    | IInsn i => after8 full i a
    | IInvalid _ => ext a [] [(RecordsProcessed, 1); (InsnScanned, 1)]
    | IOther _ => a
    end.
  Definition ops_of (x : item8) (prev : N) : list Tlb_Model.op :=
    match x with IInsn i => ops8 i (addr8 i prev) | _ => [] end.

  Lemma finish_one : forall v ws a s (Q : bool -> hst -> Prop), R ws a s ->
    (forall s', R ws a s' -> Q true s') ->
    wp (_ <-- (if (0 =? -2)%Z then htm_rewind v else hret tt) ;;
        if (0 <? 0)%Z then
          e <-- hget h_errors ;; _ <-- hset (set_errors (e + 1)) ;;
          (if (100 <? e)%Z then herror HAssert else hret true)
        else _ <-- hset (set_errors 0) ;; hret true) Q s.
  Proof.
    intros v ws a s Q RS K. change (0 =? -2)%Z with false. change (0 <? 0)%Z with false. cbv iota.
    apply wp_retb, wp_set, wp_ret, K. exact RS.
  Qed.

  Lemma run_item : forall x a ws s (Q : bool -> hst -> Prop), R (words8 x ++ ws) a s ->
    item8_ok (ab_addr a) x ->
    N.of_nat (length (ab_ea a)) < 2 ^ 30 -> N.of_nat (length (ab_ops a)) + 1 < 2 ^ 30 ->
    Forall Tlb_Spec.op_ok (ab_ops a) ->
    Tlb_Spec.no_mixed_overlap (ab_ops a ++ if full then ops_of x (ab_addr a) else []) ->
    (full = true -> Tlb_Spec.top_unused (ab_ops a) (ops_of x (ab_addr a))) ->
    (forall s', R ws (after x a) s' -> Q true s') ->
    wp (decode_one qs stale junk full) Q s.
  Proof.
    intros x a ws s Q RS OK LE LO OPS NM TU K. unfold decode_one.
    destruct x as [w r|i|w|w]; cbn [words8 app after] in *; cbn [item8_ok] in OK.
    - destruct OK as [W ST]. eapply fetch_one; [exact stale_len|exact small|exact RS|]. clear s RS. intros s RS.
      pose proof (stamp_marked w r ST) as M.
      destruct (N.eqb_spec w 0) as [Z|_]; [rewrite field_zero in M by exact Z; discriminate|].
      rewrite bits_field by lia. rewrite M, N.eqb_refl. apply wp_assoc.
      eapply run_stamp; [exact RS|exact ST|]. clear s RS. intros s RS. apply wp_retb.
      eapply finish_one; [exact RS|exact K].
    - pose proof (addr_lt _ _ OK) as HA. pose proof OK as (_ & RAW & RM & X33 & X62 & _).
      destruct (info_decoded i RAW X33 X62) as (_ & M & T & L).
      unfold insn_words in RS. cbn [app] in RS.
      eapply fetch_one; [exact stale_len|exact small|exact RS|]. clear s RS. intros s RS.
      destruct (N.eqb_spec (info_word i) 0) as [Z|_]; [rewrite field_zero in M by exact Z; discriminate|].
      rewrite !bits_field by lia. rewrite T, M. apply N.eqb_neq in RM. rewrite RM, N.eqb_refl.
      apply wp_bind. rewrite <- !app_assoc in RS.
      eapply run_insn8; [exact qs_ok|exact stale_len|exact small|exact J8|exact RS|exact OK|exact HA|exact LE|exact LO|exact OPS|exact NM|exact TU|].
      clear s RS. intros s RS. eapply finish_one; [exact RS|exact K].
    - destruct OK as (W & M1 & M2 & NZ & V). eapply fetch_one; [exact stale_len|exact small|exact RS|]. clear s RS. intros s RS.
      destruct (N.eqb_spec w 0) as [Z|_]; [rewrite field_zero in M2 by exact Z; discriminate|].
      rewrite !bits_field by lia. pose proof M1 as M1'. apply N.eqb_neq in M1. rewrite M1, M2. change (703710 =? 703710) with true. cbv iota.
      unfold decode_insn8. apply wp_assoc. eapply count_ext; [exact RS|]. clear s RS. intros s RS.
      apply wp_assoc. eapply count_ext; [exact RS|]. clear s RS. intros s RS. rewrite ext_ext in RS.
      unfold decode_info8. rewrite !bits_field, !bit_spec by lia. rewrite M2. change (703710 =? 703710) with true. cbn [negb].
      apply N.eqb_neq in NZ. rewrite NZ. cbn [i_valid]. rewrite V. cbn [negb]. apply wp_retb.
      eapply finish_one; [exact RS|exact K].
    - destruct OK as (W & M1 & M2 & M3). eapply fetch_one; [exact stale_len|exact small|exact RS|]. clear s RS. intros s RS.
      destruct (w =? 0); [apply wp_ret, K, RS|]. rewrite !bits_field by lia.
      apply N.eqb_neq in M1, M2, M3. rewrite M1, M2, M3. apply wp_retb. eapply finish_one; [exact RS|exact K].
  Qed.

  Fixpoint afters (l : list item8) (a : abs) : abs :=
    match l with [] => a | x :: l' => afters l' (after x a) end.

  Lemma run_end : forall fuel a s (Q : unit -> hst -> Prop), R [] a s ->
    bad = true \/ other (be_val (stale (Z.of_nat nwords))) ->
    (forall s', Sim a s' -> Q tt s') -> wp (decode_loop qs stale junk full (S (S fuel))) Q s.
  Proof.
    clear J8. intros fuel a s Q [(D & RW & E & BD & _ & NR) SIM] OT K. cbn [length] in NR. rewrite Z.add_0_r in NR.
    change (decode_loop qs stale junk full (S (S fuel))) with
      (b <-- decode_one qs stale junk full ;; if b : bool then decode_loop qs stale junk full (S fuel) else hret tt).
    apply wp_bind. unfold decode_one at 1. apply wp_bind. unfold wp at 1. unfold fetch_internal, htm_read.
    rewrite RW, D, E, BD. cbn [bytes_of flat_map firstn skipn length]. destruct bad eqn:BB; cbn [andb orb].
    - change (0 <? 8)%nat with true. cbv iota. change (-1 <=? 0)%Z with true. cbv iota.
      apply wp_ret. apply wp_ret, K. exact SIM.
    - destruct OT as [OT|OT]; [discriminate|]. change (1 <=? 0)%Z with false. change (0 =? 0)%nat with true. cbv iota.
      cbn [c_nr]. rewrite NR. destruct (Z.eqb_spec (Z.of_nat nwords) 2147483647) as [X|_]; [lia|].
      cbn [app c_data c_bad c_eof c_off c_nr_rewind c_rewind c_scanned c_sum].
      set (v := be_val (stale (Z.of_nat nwords))) in *.
      match goal with |- wp _ _ ?st => set (s1 := st) end.
      assert (D1 : c_rewind (h_cur s1) = false /\ c_data (h_cur s1) = [] /\ c_bad (h_cur s1) = false /\ c_eof (h_cur s1) = true) by (repeat split).
      assert (SIM1 : Sim a s1) by exact SIM. clearbody s1 v. clear s D RW E BD NR SIM.
      assert (LAST : forall s, c_rewind (h_cur s) = false /\ c_data (h_cur s) = [] /\ c_bad (h_cur s) = false /\ c_eof (h_cur s) = true ->
        Sim a s -> wp (decode_loop qs stale junk full (S fuel)) Q s).
      { clear s1 D1 SIM1. intros s (RW & D & BD & E) SIM.
        change (decode_loop qs stale junk full (S fuel)) with
          (b <-- decode_one qs stale junk full ;; if b : bool then decode_loop qs stale junk full fuel else hret tt).
        apply wp_bind. unfold decode_one at 1. apply wp_bind. unfold wp at 1. unfold fetch_internal, htm_read.
        rewrite RW, D, E, BD. cbn [firstn skipn length andb orb].
        change (0 =? 0)%nat with true. cbv iota. change (0 <=? 0)%Z with true. cbv iota. apply wp_ret, wp_ret, K. exact SIM. }
      destruct OT as (_ & M1 & M2 & M3). 
      destruct (v =? 0); [apply wp_ret; apply LAST; assumption|]. rewrite !bits_field by lia.
      apply N.eqb_neq in M1, M2, M3. rewrite M1, M2, M3. apply wp_retb.
      change (0 =? -2)%Z with false. change (0 <? 0)%Z with false. cbv iota.
      apply wp_retb, wp_set, wp_ret. apply LAST; assumption.
  Qed.

  Lemma after_addr : forall x a, ab_addr (after x a) = next8 (ab_addr a) x.
  Proof. intros [] a; reflexivity. Qed.
  Lemma after_ops : forall x a, ab_ops (after x a) = ab_ops a ++ if full then ops_of x (ab_addr a) else [].
  Proof. intros [] a; cbn [after ops_of of_stamp after8 ext ab_ops]; destruct full; rewrite ?app_nil_r; reflexivity. Qed.
  Lemma pages_cons : forall prev x l, pages8 prev (x :: l) = ops_of x prev ++ pages8 (next8 prev x) l.
  Proof. intros prev [] l; reflexivity. Qed.
  Lemma ops_small : forall x prev, (length (ops_of x prev) <= 1)%nat.
  Proof. intros [] prev; cbn; try lia. unfold ops8. destruct (s_ira i) as [[? ?]|]; cbn; [lia|]. destruct (s_iea i); cbn; lia. Qed.
  Lemma run_items : forall l fuel a s (Q : unit -> hst -> Prop), R (flat_map words8 l) a s ->
    trace8_ok (ab_addr a) l ->
    (length (ab_ea a) + length l <= nwords)%nat -> (length (ab_ops a) + length l <= nwords)%nat ->
    (Z.of_nat nwords < 2 ^ 30)%Z ->
    Forall Tlb_Spec.op_ok (ab_ops a) ->
    Tlb_Spec.no_mixed_overlap (ab_ops a ++ if full then pages8 (ab_addr a) l else []) ->
    (full = true -> Tlb_Spec.top_unused (ab_ops a) (pages8 (ab_addr a) l)) ->
    bad = true \/ other (be_val (stale (Z.of_nat nwords))) ->
    (length l + 2 <= fuel)%nat ->
    (forall s', Sim (afters l a) s' -> Q tt s') -> wp (decode_loop qs stale junk full fuel) Q s.
  Proof.
    induction l as [|x l IH]; intros fuel a s Q RS OK LE LO SM OPS NM TU OT F K.
    - destruct fuel as [|[|fuel]]; [cbn in F; lia|cbn in F; lia|]. eapply run_end; eassumption.
    - destruct fuel as [|fuel]; [cbn in F; lia|].
      change (decode_loop qs stale junk full (S fuel)) with
        (b <-- decode_one qs stale junk full ;; if b : bool then decode_loop qs stale junk full fuel else hret tt).
      apply wp_bind. cbn [flat_map] in RS. cbn [trace8_ok] in OK. destruct OK as [OK1 OK2]. cbn [length] in *.
      rewrite pages_cons in NM, TU.
      eapply run_item; [exact RS|exact OK1|lia|lia|exact OPS| | |].
      + apply no_mixed_prefix with (if full then pages8 (next8 (ab_addr a) x) l else []).
        rewrite <- app_assoc. destruct full; exact NM.
      + intros FU. specialize (TU FU). apply top_app in TU. apply TU.
      + intros s1 RS1. 
        assert (OPS' : Forall Tlb_Spec.op_ok (ab_ops (after x a))).
        { rewrite after_ops. apply Forall_app. split; [exact OPS|]. destruct full; [|constructor].
          destruct x; cbn [ops_of]; try constructor. apply ops8_ok. exact OK1. }
        eapply IH; [exact RS1| | | |exact SM|exact OPS'| | |exact OT| |exact K]; rewrite ?after_addr.
        * exact OK2.
        * assert ((length (ab_ea (after x a)) <= length (ab_ea a) + 1)%nat); [|lia].
          destruct x; cbn [after of_stamp after8 ext ab_ea]; rewrite ?app_length; cbn [length]; lia.
        * rewrite after_ops, app_length. pose proof (ops_small x (ab_addr a)). destruct full; cbn [length]; lia.
        * rewrite after_ops. rewrite <- app_assoc. destruct full; exact NM.
        * intros FU. specialize (TU FU). apply top_app in TU. rewrite after_ops, FU. apply TU.
        * lia.
  Qed.

  Lemma afters_addr_log : forall l a, ab_log (afters l a) = ab_log a ++ insns8 (ab_addr a) l
    /\ ab_ea (afters l a) = ab_ea a ++ map fst (insns8 (ab_addr a) l)
    /\ ab_out (afters l a) = ab_out a ++ (if full then records8 (ab_ops a) (ab_addr a) l else [])
    /\ (forall c, count_of c (ab_cnt (afters l a)) = count_of c (ab_cnt a) + count_of c (flat_map (events8 full) l)
                     + if full then count_of c (flows (ab_prev a) (visits8 (ab_addr a) l)) else 0)
    /\ ab_ops (afters l a) = ab_ops a ++ (if full then pages8 (ab_addr a) l else []).
  Proof.
    clear. induction l as [|x l IH]; intros a.
    - cbn. destruct full; rewrite !app_nil_r; repeat split; try reflexivity; intros c; unfold count_of; cbn; lia.
    - cbn [afters]. destruct (IH (after x a)) as (H1 & H2 & H3 & H4 & H5). rewrite H1, H2, H3, H5.
      split; [|split; [|split; [|split; [intros c; rewrite (H4 c)|]]]]; clear H1 H2 H3 H4 H5 IH;
      rewrite ?after_addr, ?after_ops, ?pages_cons; cbn [flat_map].
      + destruct x as [w r|i|w|w]; cbn [after of_stamp after8 ext ab_log ab_addr insns8 next8]; rewrite <- ?app_assoc; reflexivity.
      + destruct x as [w r|i|w|w]; cbn [after of_stamp after8 ext ab_ea ab_addr insns8 next8 map fst]; rewrite <- ?app_assoc; reflexivity.
      + destruct x as [w r|i|w|w]; cbn [after of_stamp after8 ext ab_out ab_ops ab_addr records8 next8 ops_of]; rewrite <- ?app_assoc; try reflexivity.
        * destruct full; [rewrite <- app_assoc, app_nil_r|]; reflexivity.
        * destruct full; [rewrite <- app_assoc|]; reflexivity.
        * destruct full; rewrite ?app_nil_r; reflexivity.
        * destruct full; rewrite ?app_nil_r; reflexivity.
      + destruct x as [w r|i|w|w]; cbn [after of_stamp after8 ext ab_cnt ab_prev ab_addr events8 next8 visits8]; rewrite ?count_of_app; change (count_of c []) with 0; try lia.
        destruct full; cbn [flows]; rewrite ?count_of_app; change (count_of c []) with 0; unfold event; ring.
      + destruct full; rewrite <- ?app_assoc; reflexivity.
  Qed.
End LOOP.

(** With a property of all instruction records. *)
Lemma trace8_all : forall qs stale junk full bad (J : qrec -> Prop) items,
  (forall n esid insn addr p, J (record8 (junk n) esid insn addr p)) ->
  Tlb_Spec.sorter qs -> (forall z, length (stale z) = 8%nat) ->
  let ws := flat_map words8 items in
  (Z.of_nat (length ws) < 2 ^ 30)%Z -> trace8_ok 0 items ->
  (full = true -> Tlb_Spec.no_mixed_overlap (pages8 0 items) /\ Tlb_Spec.top_unused [] (pages8 0 items)) ->
  bad = true \/ other (be_val (stale (Z.of_nat (length ws)))) ->
  exists s, htm_decode qs stale junk full (bytes_of ws) bad = HOk s
    /\ Forall2 (told J) (if full then records8 [] 0 items else []) (h_out s)
    /\ h_log s = insns8 0 items
    /\ Bb_Model.bb_run (map fst (insns8 0 items)) = Bb_Model.BOk (h_bb s)
    /\ (forall c, counted c -> h_stat s c = count_of c (flat_map (events8 full) items) mod 2 ^ 32)
    /\ h_stat s Interrupts = (if full then interrupts (visits8 0 items) else 0) mod 2 ^ 32
    /\ h_stat s BranchesAfterNonBranches = (if full then after_branches (visits8 0 items) else 0) mod 2 ^ 32
    /\ Tlbdump_Proofs4.good (if full then pages8 0 items else []) (h_tlb s).
Proof.
  intros qs stale junk full bad J items J8 QS SL ws SM OK PG OT. unfold htm_decode.
  assert (LI : (length items <= length ws)%nat).
  { unfold ws. clear. induction items as [|x l IH]; [cbn; lia|]. cbn [flat_map length]. rewrite app_length.
    pose proof (words_pos x). lia. }
  assert (W64 : Forall (fun w => w < 2 ^ 64) ws).
  { unfold ws. clear - OK. revert OK. generalize 0 at 1. induction items as [|x l IH]; intros prev OK; [constructor|].
    cbn [trace8_ok] in OK. destruct OK as [O1 O2]. cbn [flat_map]. apply Forall_app. split; [|eapply IH; exact O2].
    assert (PW : forall o P, part_ok o P -> Forall (fun w => w < 2 ^ 64) (part_words o)).
    { intros [[st w]|] P H; [|constructor]. destruct H as (S1 & (U & _) & _). cbn [part_words]. apply Forall_app.
      split; [|repeat constructor; exact U]. clear - S1. induction S1 as [|p st [H _] _ IH]; constructor; assumption. }
    destruct x as [w r|i|w|w]; cbn [words8]; try (repeat constructor; apply O1).
    destruct O1 as (_ & RAW & _ & X33 & X62 & OI & OR & OD & OX). 
    destruct (info_decoded i RAW X33 X62) as (_ & _ & _ & L).
    constructor; [exact L|]. repeat (apply Forall_app; split); eapply PW; eassumption. }
  destruct Tlb_Model.tlb_init as [t|e] eqn:TI; [|discriminate].
  destruct Bb_Model.bb_init as [b|e] eqn:BI; [|discriminate].
  pose (a0 := mk_abs 0 [] [] [] [] [] (0, false)).
  assert (R0 : R bad (length ws) J ws a0 (init_st (bytes_of ws) bad t b)).
  { split; [repeat split; assumption|]. split; [reflexivity|]. split.
    - injection TI as <-. apply Tlbdump_Proofs4.good_zero.
    - split; [|split; [reflexivity|split; [constructor|split; [|reflexivity]]]].
      + cbn [a0 ab_ea]. unfold Bb_Model.bb_run. rewrite BI. reflexivity.
      + intros c. reflexivity. }
  assert (RUN : wp (decode_loop qs stale junk full (2 * length (bytes_of ws) + 8)) (fun _ s => Sim J (afters full items a0) s)
                   (init_st (bytes_of ws) bad t b)).
  { eapply run_items with (a := a0); [exact QS|exact SL| |exact J8|exact R0|exact OK| | |exact SM|constructor| | |exact OT| |].
    - lia.
    - cbn. lia.
    - cbn. lia.
    - cbn [a0 ab_ops ab_addr app]. destruct full; [apply PG; reflexivity|]. intros a1 f1 r1 s1 a2 f2 r2 s2 [].
    - intros FU. apply PG, FU.
    - rewrite bytes_length. lia.
    - intros s' H. exact H. }
  unfold wp in RUN. destruct (decode_loop _ _ _ _ _ _) as [[s u]|e]; [|contradiction].
  exists s. split; [reflexivity|]. destruct RUN as (_ & S2 & S3 & S4 & S5 & S6 & _).
  destruct (afters_addr_log full items a0) as (H1 & H2 & H3 & H4 & H5). rewrite H1 in S4. rewrite H2 in S3. rewrite H3 in S5.
  rewrite H5 in S2.
  split; [exact S5|]. split; [exact S4|]. split; [exact S3|].
  destruct (flows_count (visits8 0 items) (0, false)) as (F1 & F2 & F3).
  assert (E0 : forall c, ~ counted c -> count_of c (flat_map (events8 full) items) = 0).
  { intros c NC. apply none_counted; [|exact NC]. intros e IE. apply in_flat_map in IE as (x & _ & IE). apply (events_counted _ _ _ IE). }
  cbn [a0 ab_cnt ab_prev ab_addr] in H4.
  split; [|split; [|split; [|exact S2]]].
  - intros c C. rewrite (S6 c), H4. rewrite (F3 c C). f_equal. unfold count_of at 1. cbn [map fold_right]. destruct full; lia.
  - rewrite S6, H4, E0 by (intros [X _]; congruence). rewrite F1. unfold count_of. cbn [map fold_right]. reflexivity.
  - rewrite S6, H4, E0 by (intros [_ X]; congruence). rewrite F2. unfold count_of. cbn [map fold_right]. reflexivity.
Qed.
Lemma trace8_with : forall qs stale junk full bad (J : qrec -> Prop) items,
  (forall n esid insn addr p, J (record8 (junk n) esid insn addr p)) ->
  Tlb_Spec.sorter qs -> (forall z, length (stale z) = 8%nat) ->
  let ws := flat_map words8 items in
  (Z.of_nat (length ws) < 2 ^ 30)%Z -> trace8_ok 0 items ->
  (full = true -> Tlb_Spec.no_mixed_overlap (pages8 0 items) /\ Tlb_Spec.top_unused [] (pages8 0 items)) ->
  bad = true \/ other (be_val (stale (Z.of_nat (length ws)))) ->
  exists s, htm_decode qs stale junk full (bytes_of ws) bad = HOk s
    /\ Forall2 (told J) (if full then records8 [] 0 items else []) (h_out s)
    /\ h_log s = insns8 0 items
    /\ Bb_Model.bb_run (map fst (insns8 0 items)) = Bb_Model.BOk (h_bb s)
    /\ (forall c, counted c -> h_stat s c = count_of c (flat_map (events8 full) items) mod 2 ^ 32).
Proof.
  intros qs stale junk full bad J items J8 QS SL ws SM OK PG OT.
  destruct (trace8_all qs stale junk full bad J items J8 QS SL SM OK PG OT) as (s & H1 & H2 & H3 & H4 & H5 & _).
  exists s. auto.
Qed.
Lemma trace8 : forall qs stale junk full bad items,
  Tlb_Spec.sorter qs -> (forall z, length (stale z) = 8%nat) ->
  let ws := flat_map words8 items in
  (Z.of_nat (length ws) < 2 ^ 30)%Z -> trace8_ok 0 items ->
  (full = true -> Tlb_Spec.no_mixed_overlap (pages8 0 items) /\ Tlb_Spec.top_unused [] (pages8 0 items)) ->
  bad = true \/ other (be_val (stale (Z.of_nat (length ws)))) ->
  exists s, htm_decode qs stale junk full (bytes_of ws) bad = HOk s
    /\ Forall2 tells (if full then records8 [] 0 items else []) (h_out s)
    /\ h_log s = insns8 0 items
    /\ Bb_Model.bb_run (map fst (insns8 0 items)) = Bb_Model.BOk (h_bb s)
    /\ (forall c, counted c -> h_stat s c = count_of c (flat_map (events8 full) items) mod 2 ^ 32).
Proof.
  intros qs stale junk full bad items QS SL ws SM OK PG OT.
  destruct (trace8_with qs stale junk full bad (fun _ => True) items (fun _ _ _ _ _ => I) QS SL SM OK PG OT)
    as (s & H1 & H2 & H3).
  exists s. split; [exact H1|]. split; [|exact H3].
  clear - H2. induction H2 as [|e r l l' [H _] _ IH]; constructor; assumption.
Qed.
