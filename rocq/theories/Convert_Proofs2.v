(** Proofs for C57: POWER8 and POWER9. *)
Require Import NArith ZArith List Bool Lia.
Require Import ZifyBool ZifyN ZifyNat.
Require Import Verif.Word Verif.Codec_Types Verif.HtmBits_Spec Verif.HtmBits_Proofs Verif.Htm_Model.
Require Import Verif.Codec_Spec Verif.Writer_Model Verif.Reader_Model.
Require Import Verif.Trace_Spec Verif.Trace_Proofs Verif.Trace8_Proofs Verif.Trace8_Proofs2 Verif.Trace8_Proofs3 Verif.Trace8_Proofs4.
Require Import Verif.Convert_Model Verif.Convert_Spec Verif.Convert_Proofs.
Require Verif.Tlb_Model Verif.Tlb_Spec.
Import ListNotations.
Local Open Scope N_scope.

(** Fields that were not assigned. *)
Definition unset (j q : qrec) : Prop :=
  (q_insn_ra_valid q = false -> q_insn_ra q = q_insn_ra j /\ q_radix_insn q = q_radix_insn j)
  /\ (q_data_addr_valid q = false -> q_data_addr q = q_data_addr j)
  /\ (q_data_ra_valid q = false -> q_data_ra q = q_data_ra j /\ q_radix_data q = q_radix_data j).
Definition unset8 (j q : qrec) : Prop :=
  unset j q /\ q_radix_insn q = q_radix_insn j /\ q_radix_data q = q_radix_data j
  /\ q_ginsn_ps_valid q = q_ginsn_ps_valid j /\ q_gdata_ps_valid q = q_gdata_ps_valid j.
Lemma record8_unset : forall j esid insn addr p, unset8 j (record8 j esid insn addr p).
Proof.
  intros j esid insn addr p. unfold unset8, unset, record8.
  cbn [q_insn_ra_valid q_insn_ra q_radix_insn q_data_addr_valid q_data_addr q_data_ra_valid q_data_ra q_radix_data q_ginsn_ps_valid q_gdata_ps_valid].
  split; [|repeat split]. split; [|split].
  - intros ->. split; reflexivity.
  - intros ->. reflexivity.
  - intros ->. split; reflexivity.
Qed.

Definition small_pair (o : option (N * N)) : Prop :=
  match o with Some x => fst x < 2 ^ 64 /\ snd x <= 30 | None => True end.
Definition small_addr (o : option N) : Prop := match o with Some x => x < 2 ^ 64 | None => True end.
Definition no_insn (r : hrec) : Prop := match r with RInsn _ => False | _ => True end.
Definition small8 (e : erec) : Prop :=
  match e with
  | EStamp r => no_insn r
  | EInsn insn addr ira dea dra =>
      0 < insn < 2 ^ 32 /\ addr < 2 ^ 64 /\ small_pair ira /\ small_addr dea /\ small_pair dra
  | EInsn10 _ _ _ _ _ _ _ _ _ _ _ => False
  end.

Lemma known_more : forall A (v : option A) b (P Q : A -> Prop), known v b P ->
  (forall x, v = Some x -> Q x) -> known v b (fun x => P x /\ Q x).
Proof. intros A [x|] b P Q H K; cbn in *; [destruct H; auto|exact H]. Qed.
Lemma known_lt : forall A (v : option A) b (f : A -> N) x j (P : A -> Prop), known v b P ->
  (forall y, P y -> x = f y) -> (forall y, v = Some y -> f y < 2 ^ 64) -> (b = false -> x = j) -> j < 2 ^ 64 ->
  x < 2 ^ 64.
Proof.
  intros A [y|] b f x j P H E L U LJ; cbn in H.
  - destruct H as [_ H]. rewrite (E y H). apply L. reflexivity.
  - rewrite (U H). exact LJ.
Qed.

Lemma agrees8 : forall j insn addr ira dea dra q, quiet8 j -> tells (EInsn insn addr ira dea dra) (RInsn q) ->
  unset8 j q -> small8 (EInsn insn addr ira dea dra) ->
  agrees false (mk_given insn addr ira dea dra None None None None None) q.
Proof.
  intros j insn addr ira dea dra q (((Y1 & Y2 & Y3 & Y4 & Y5 & Y6 & Y7) & Q1) & Q2 & Q3 & Q4)
    (T1 & T2 & T3 & T4 & T5 & T6 & T7) ((UI & UD & UR) & U1 & U2 & U3 & U4) (B1 & B2 & B3 & B4 & B5).
  assert (S3 : forall x, ira = Some x -> fst x < 2 ^ 64 /\ snd x <= 30) by (intros x ->; exact B3).
  assert (S4 : forall x, dea = Some x -> x < 2 ^ 64) by (intros x ->; exact B4).
  assert (S5 : forall x, dra = Some x -> fst x < 2 ^ 64 /\ snd x <= 30) by (intros x ->; exact B5).
  unfold agrees. cbn [g_insn g_addr g_ira g_dea g_dra g_branch g_gips g_gdps g_iwalk g_dwalk].
  split; [exact T1|]. split; [exact T2|]. split; [exact T3|].
  split; [apply known_more; [exact T4|intros x E; apply S3; exact E]|].
  split; [exact T5|]. split; [exact T6|].
  split; [apply known_more; [exact T7|intros x E; apply S5; exact E]|].
  split; [cbn; congruence|]. split; [cbn; congruence|].
  split; [unfold side, with_walk; destruct (q_insn_ra_valid q); [split; congruence|reflexivity]|].
  split; [unfold side, with_walk; destruct (q_data_ra_valid q); [split; congruence|reflexivity]|].
  split; [|exact I].
  split; [rewrite T1; apply B1|]. split; [rewrite T2; exact B2|].
  split; [eapply (known_lt _ ira _ fst); [exact T3|auto|intros y E; apply S3; exact E|intros V; apply UI; exact V|exact Y3]|].
  split; [eapply (known_lt _ dea _ (fun x => x)); [exact T5|auto|exact S4|intros V; apply UD; exact V|exact Y4]|].
  split; [eapply (known_lt _ dra _ fst); [exact T6|auto|intros y E; apply S5; exact E|intros V; apply UR; exact V|exact Y5]|].
  split; [rewrite U1; exact Y6|rewrite U2; exact Y7].
Qed.

Definition J8 (junk : Z -> qrec) (q : qrec) : Prop := exists n, unset8 (junk n) q.
Lemma agree8_all : forall junk, (forall n, quiet8 (junk n)) -> forall l out,
  Forall2 (told (J8 junk)) l out -> Forall small8 l ->
  Forall2 (agrees false) (flat_map given_of l) (flat_map to_write out)
  /\ Forall (fun g => 0 < g_insn g < 2 ^ 32) (flat_map given_of l).
Proof.
  intros junk Q l out F. induction F as [|e r l out [T J] F IH]; intros S; [split; constructor|].
  inversion S as [|? ? S1 S2]; subst. destruct (IH S2) as [IH1 IH2]. cbn [flat_map].
  destruct e as [s|insn addr ira dea dra|]; [| |destruct S1].
  - cbn [tells] in T. subst r. cbn [given_of app]. destruct s; try (split; assumption). destruct S1.
  - destruct r as [q| | | | | |]; try contradiction. cbn [given_of to_write app].
    destruct (J q eq_refl) as [n U]. split; constructor; try assumption.
    + exact (agrees8 (junk n) insn addr ira dea dra q (Q n) T U S1).
    + exact (proj1 S1).
Qed.

(** Bounds of what is in the trace. *)
Lemma stamp_no_insn : forall w r, stamp w r -> no_insn r.
Proof. intros w r []; exact I. Qed.
Lemma b1_le : forall b, b1 b <= 1.
Proof. intros []; cbn; lia. Qed.
Lemma shown_small : forall iea b raw insn, 0 < raw < 2 ^ 32 -> shown8 iea b raw insn -> 0 < insn < 2 ^ 32.
Proof.
  intros iea b raw insn R H. destruct H as
    [w NR|w M1 M2|x0 x31 li lk L1 L2 L3|x0 x31 li lk L1 L2|x0 x30 x31 type bo bi bd lk L1 L2 L3 L4 L5 L6
    |x0 x30 x31 type bo bi bd lk L1 L2 L3 L4 L5|x0 type m x6 x17 tar bo bi bh x21 lk L1 L2 L3 L4 L5 L6 L7 L8].
  - exact R.
  - assert (LE : N.ldiff w 0xe000 <= w).
    { rewrite <- (N.lor_ldiff_and w 0xe000) at 2.
      assert (D : N.land (N.ldiff w 0xe000) (N.land w 0xe000) = 0).
      { apply N.bits_inj. intros k. rewrite !N.land_spec, N.ldiff_spec, N.bits_0.
        destruct (N.testbit w k), (N.testbit 0xe000 k); reflexivity. }
      rewrite <- N.lxor_lor by exact D. rewrite <- N.add_nocarry_lxor by exact D. lia. }
    split; [|lia].
    assert (F19 : field 32 w 0 5 = 19) by exact M1. unfold field in F19.
    destruct (N.eq_dec (N.ldiff w 0xe000) 0) as [Z|NZ]; [|lia]. exfalso.
    assert (T : N.testbit (N.ldiff w 0xe000) 26 = false) by (rewrite Z; reflexivity).
    rewrite N.ldiff_spec in T. replace (N.testbit 0xe000 26) with false in T by reflexivity.
    rewrite andb_true_r in T. rewrite N.testbit_eqb in T. apply N.eqb_neq in T. 
    change (32 - 1 - 5) with 26 in F19. change (5 - 0 + 1) with 6 in F19. lia.
  - unfold iform. pose proof (b1_le lk). cbn [b1]. lia.
  - unfold iform. pose proof (b1_le lk). cbn [b1]. lia.
  - unfold bform. pose proof (b1_le lk). cbn [b1]. lia.
  - unfold bform. pose proof (b1_le lk). cbn [b1]. lia.
  - unfold xlform, xl_op. pose proof (b1_le lk). destruct (type =? 2), tar; lia.
Qed.

Lemma latest_page : forall h ea page size, Forall Tlb_Spec.op_ok h ->
  Tlb_Spec.latest h ea = Some (page, size) -> exists ra, ra < 2 ^ 64 /\ page = ra / size * size.
Proof.
  induction h as [|[a f r z|a f] h IH]; intros ea page size F L; inversion F; subst; cbn [Tlb_Spec.latest] in L;
    [discriminate| |eapply IH; eassumption].
  destruct (Tlb_Spec.latest h ea) as [[p' z']|] eqn:E; [injection L as -> ->; eapply IH; eassumption|].
  destruct (N.odd f) eqn:O; [|discriminate]. destruct (_ =? _); [|discriminate]. injection L as <- <-.
  destruct (H1 O) as (_ & _ & X & _). exists r. auto.
Qed.
Lemma answer_small : forall pre a fl, Forall Tlb_Spec.op_ok pre -> a < 2 ^ 64 ->
  small_pair (option_map (fun x => (fst x, N.log2 (snd x))) (Tlb_Spec.answer pre a fl)).
Proof.
  intros pre a fl F A. unfold Tlb_Spec.answer. destruct (N.odd fl).
  - destruct (Tlb_Spec.latest pre a) as [[p z]|] eqn:L; [|exact I]. cbn [option_map small_pair fst snd].
    destruct (latest_page _ _ _ _ F L) as (ra & LR & ->).
    destruct (latest_size _ _ _ _ F L) as [->|[->| ->]];
      [change (N.log2 4096) with 12|change (N.log2 65536) with 16|change (N.log2 16777216) with 24]; lia.
  - cbn [option_map small_pair fst snd]. change (N.log2 4096) with 12. lia.
Qed.
Lemma real8_small : forall i prev pre, insn8_ok i (addr8 i prev) -> Forall Tlb_Spec.op_ok pre ->
  small_pair (real8 i pre (addr8 i prev)).
Proof.
  intros i prev pre OK F. pose proof (addr_lt _ _ OK) as HA. unfold real8.
  destruct OK as (_ & _ & _ & _ & _ & OI & OR & _).
  destruct (s_ira i) as [[l w]|].
  - destruct OR as (_ & U & O1 & O2 & O3). destruct (ira_decoded w (addr8 i prev) U O1 O2 O3) as [_ L].
    cbn [small_pair fst snd]. split; [exact L|]. destruct (ishift_cases w) as [->|[->| ->]]; lia.
  - destruct (s_iea i); [|exact I]. apply answer_small; assumption.
Qed.
Lemma record_small : forall i prev pre, insn8_ok i (addr8 i prev) -> Forall Tlb_Spec.op_ok pre ->
  small8 (record_of8 i pre (addr8 i prev)).
Proof.
  intros i prev pre OK F. pose proof (addr_lt _ _ OK) as HA. pose proof (real8_small _ _ _ OK F) as HR.
  destruct OK as (SH & RW & _ & _ & _ & _ & _ & OD & OX). cbn [record_of8 small8].
  split; [exact (shown_small _ _ _ _ RW SH)|]. split; [exact HA|].
  split; [destruct (s_esid i); [exact I|exact HR]|]. split.
  - unfold data8. destruct (s_dea i) as [[l d]|]; [|exact I]. cbn [option_map small_addr snd].
    destruct (s_esid i); [lia|]. destruct OD as (_ & (L & _) & _). exact L.
  - unfold data_real8. destruct (s_esid i); [exact I|]. destruct (s_dra i) as [[l x]|]; [|exact I].
    cbn [option_map small_pair fst snd]. unfold dpage.
    pose proof (field_lt 64 x 2 39) as B. change (2 ^ (39 - 2 + 1)) with (2 ^ 38) in B.
    split; [|destruct (dshift_cases x) as [->|[->| ->]]; lia].
    destruct OX as (_ & _ & OX). destruct (OX eq_refl) as [_ AL]. unfold dpage in AL.
    destruct (s_dea i) as [[l' d]|]; [|lia].
    destruct (dshift_cases x) as [E|[E|E]]; rewrite E in *; lia.
Qed.
Lemma records_small : forall items prev pre, trace8_ok prev items -> Forall Tlb_Spec.op_ok pre ->
  Forall small8 (records8 pre prev items).
Proof.
  induction items as [|x items IH]; intros prev pre OK F; [constructor|].
  cbn [trace8_ok] in OK. destruct OK as [O1 O2].
  destruct x as [w r|i|w|w]; cbn [records8 next8] in *; try (apply IH; assumption).
  - constructor; [exact (stamp_no_insn w r (proj2 O1))|apply IH; assumption].
  - apply Forall_app. split.
    + assert (PS : forall o P, part_ok o P -> Forall (fun p => no_insn (snd p)) (part_stamps o)).
      { intros [[l w]|] P H; [|constructor]. destruct H as (S1 & _). cbn [part_stamps].
        eapply Forall_impl; [|exact S1]. intros p [_ X]. exact (stamp_no_insn _ _ X). }
      apply Forall_map. cbn [small8]. destruct O1 as (_ & _ & _ & _ & _ & OI & OR & OD & OX).
      unfold insn_stamps. repeat (apply Forall_app; split); eapply PS; eassumption.
    + constructor; [apply record_small; assumption|]. apply IH; [exact O2|]. apply Forall_app. split; [exact F|].
      apply ops8_ok. exact O1.
Qed.

Lemma words_nonzero : forall l, Forall (fun g => 0 < g_insn g < 2 ^ 32) l -> words_good l.
Proof.
  assert (W : forall l g, Forall (fun g => 0 < g_insn g < 2 ^ 32) l -> words_follow g l).
  { induction l as [|g' l IH]; intros g F; inversion F; subst; cbn [words_follow]; [exact I|].
    split; [lia|apply IH; assumption]. }
  intros [|g l] F; [exact I|]. inversion F; subst. split; [lia|apply W; assumption].
Qed.

Lemma convert8 : forall qs stale junk bad items slack, (forall n, quiet8 (junk n)) ->
  Tlb_Spec.sorter qs -> (forall z, length (stale z) = 8%nat) ->
  let ws := flat_map words8 items in
  (Z.of_nat (length ws) < 2 ^ 30)%Z -> trace8_ok 0 items ->
  Tlb_Spec.no_mixed_overlap (pages8 0 items) -> Tlb_Spec.top_unused [] (pages8 0 items) ->
  bad = true \/ other (be_val (stale (Z.of_nat (length ws)))) -> (4 <= length slack)%nat ->
  exists file, htmdecoder qs stale junk (bytes_of ws) bad = COk file
    /\ converted (flat_map given_of (records8 [] 0 items)) (map view_of (fst (read_trace false false slack file)))
    /\ snd (read_trace false false slack file) = EndFalse.
Proof.
  intros qs stale junk bad items slack Q QS SL ws SM OK P1 P2 OT LS.
  destruct (trace8_with qs stale junk true bad (J8 junk) items) as (s & E & F & _); try assumption.
  { intros n esid insn addr p. exists n. apply record8_unset. }
  { intros _. split; assumption. }
  destruct (agree8_all junk Q _ _ F (records_small items 0 [] OK (Forall_nil _))) as [A B].
  destruct (convert_agree false _ _ slack A) as (bytes & W & C).
  - apply words_nonzero. exact B.
  - eapply Forall_impl; [|exact B]. intros g X. apply X.
  - intros g q Hg Hq V. destruct (flat_map given_of _) as [|g0 l0]; [discriminate|].
    inversion A as [|? q0 ? l1 A1 A2 X1 X2]; subst. rewrite <- X2 in Hq. cbn in Hq. injection Hq as ->.
    revert X2 V. clear - F Q. intros X2 V.
    assert (IN : In q (flat_map to_write (h_out s))) by (rewrite <- X2; left; reflexivity).
    apply in_flat_map in IN. destruct IN as (r & I1 & I2). destruct r as [q1| | | | | |]; try contradiction.
    destruct I2 as [->|[]].
    assert (K : exists e, told (J8 junk) e (RInsn q)).
    { clear - F I1. induction F as [|e r l out T F IH]; [destruct I1|]. destruct I1 as [->|I1]; [eauto|auto]. }
    destruct K as (e & _ & K). destruct (K q eq_refl) as (n & U & U1 & _). rewrite U1. apply (Q n).
  - exact LS.
  - exists bytes. unfold htmdecoder, ws. rewrite E, W. split; [reflexivity|exact C].
Qed.
