(** Proofs for C58: one instruction. *)
Require Import NArith ZArith List Bool Lia.
Require Import ZifyBool ZifyN ZifyNat.
Require Import Verif.Word Verif.Codec_Types Verif.Codec_Spec Verif.Branch_Spec Verif.Branch_Model Verif.Branch_Proofs.
Require Import Verif.Storage_Model Verif.Storage_Spec Verif.Storage_Proofs Verif.Step_Model Verif.Step_Spec Verif.Step_Proofs Verif.Step_Proofs2 Verif.Step_Proofs3.
Require Verif.Pagemap_Model Verif.Trace_Spec.
Require Import Verif.Pagemap_Spec Verif.Pagemap_Proofs.
Require Import Verif.Convert_Spec Verif.Convert_Proofs Verif.Tracer_Model Verif.Tracer_Spec.
Import ListNotations.
Local Open Scope N_scope.

(** ** A translation *)
Definition bounded (o : option (N * N)) : Prop :=
  match o with Some (pa, sh) => pa < 2 ^ 64 /\ sh <= 30 | None => True end.
Lemma asked_bounded : forall k ea pa sh, asked k ea = Some (pa, sh) -> bounded (Some (pa, sh)).
Proof.
  intros k ea pa sh. unfold asked. destruct (Pagemap_Model.pagemap_at k _) as [e|]; [|discriminate].
  destruct (bit e 63); [|discriminate]. destruct (Pagemap_Model.kpageflags_at k _) as [f|]; [|discriminate].
  intros E. injection E as <- <-. split.
  - pose proof (N.mod_lt e (2 ^ 48)). change (2 ^ 64) with (2 ^ 48 * 2 ^ 16). nia.
  - destruct (bit f 17 || bit f 22); lia.
Qed.
Lemma shift_bounded : forall st a st' pa sh, lookup st a = Pagemap_Model.PAns st' pa sh -> sh <= 30.
Proof.
  intros st a st' pa sh. rewrite lookup_eq.
  destruct (hit st a 16); [intros E; injection E as _ _ <-; lia|].
  destruct (hit st a 21); [intros E; injection E as _ _ <-; lia|].
  destruct (asked _ _) as [[pa' sh']|] eqn:A.
  - intros E. injection E as _ <- <-. apply asked_shift in A. lia.
  - destruct (Pagemap_Model.pagemap_at _ _) as [e|]; [|discriminate]. destruct (bit e 63); discriminate.
Qed.
Lemma answered_bounded : forall h a o, answered h a o -> (forall pa sh, o = Some (pa, sh) -> sh <= 30) -> bounded o.
Proof.
  intros h a [[pa sh]|] H L; [|exact I]. destruct H as [H|[(i & b & _ & H & _)|(_ & -> & _)]].
  - eapply asked_bounded, H.
  - eapply asked_bounded, H.
  - split; [reflexivity|]. eapply L. reflexivity.
Qed.
Lemma look_ok : forall h st a, reached h st -> N.of_nat (S (length h)) < 2 ^ 32 ->
  page_readable (a_kernel a) (a_ea a) ->
  exists st' o, reached (h ++ [a]) st' /\ answered h a o /\ bounded o
    /\ lookup st a = match o with Some (pa, sh) => Pagemap_Model.PAns st' pa sh | None => Pagemap_Model.PNone st' end.
Proof.
  intros h st a R L (v & P1 & P2). destruct (lookup st a) as [|st'|st' pa sh] eqn:E.
  - exfalso. rewrite lookup_eq in E. unfold asked in E. rewrite P1 in E.
    destruct (hit st a 16); [discriminate|]. destruct (hit st a 21); [discriminate|].
    destruct (bit v 63); [|discriminate].
    destruct (Pagemap_Model.kpageflags_at _ _); [discriminate|]. apply P2; reflexivity.
  - exists st', None. split; [eapply reached_none; eassumption|]. split; [|split; [exact I|reflexivity]].
    cbn [answered]. rewrite lookup_eq in E.
    destruct (hit st a 16); [discriminate|]. destruct (hit st a 21); [discriminate|].
    destruct (asked _ _) as [[pa sh]|]; [discriminate|reflexivity].
  - exists st', (Some (pa, sh)). assert (A := answers h st a st' pa sh R L E).
    split; [eapply reached_ans; eassumption|]. split; [exact A|]. split; [|reflexivity].
    eapply answered_bounded; [exact A|]. intros x y F. injection F as <- <-. eapply shift_bounded, E.
Qed.

Lemma word64_lt : forall z, word64 z < 2 ^ 64.
Proof. intros z. unfold word64. pose proof (Z.mod_pos_bound z 18446744073709551616). lia. Qed.
Lemma data_lt : forall w g d, data_of w g = Some d -> d < 2 ^ 64.
Proof.
  intros w g d. unfold data_of, isa_answer. destruct (decode w) as [i|]; [|discriminate].
  destruct (bytes_accessed _ _ _) as [n|]; [|discriminate]. intros E. injection E as <-.
  unfold effective_address. destruct (i_form i) as [|n'| | | |]; try apply word64_lt.
  pose proof (word64_lt (ra0 w g + Z.of_N (g (bits w 16 5)))) as L.
  destruct (N.eq_dec n' 0) as [->|NZ]; [rewrite N.mul_0_r; lia|].
  pose proof (N.mul_div_le (word64 (ra0 w g + Z.of_N (g (bits w 16 5)))) n' NZ). lia.
Qed.

(** ** A record *)
Definition as_given (w pc : N) (ira : option (N * N)) (dea : option N) (dra : option (N * N)) : given :=
  mk_given w pc ira dea dra (Some (isa_bo_branch w \/ isa_always_branch w)) None None None None.
Lemma fill_agrees : forall w pc ira dea dra, w < 2 ^ 32 -> pc < 2 ^ 64 -> bounded ira -> bounded dra ->
  (forall d, dea = Some d -> d < 2 ^ 64) ->
  agrees false (as_given w pc ira dea dra) (fill w pc ira dea dra).
Proof.
  intros w pc ira dea dra W P BI BD D. unfold agrees, as_given, fill.
  cbn [q_insn q_insn_addr q_insn_ra_valid q_insn_ra q_insn_ps_valid q_insn_ps q_data_addr_valid q_data_addr
       q_data_ra_valid q_data_ra q_data_ps_valid q_data_ps q_branch q_cond q_ginsn_ps_valid q_gdata_ps_valid
       q_ginsn_ps q_gdata_ps q_radix_insn q_radix_data
       g_insn g_addr g_ira g_dea g_dra g_branch g_gips g_gdps g_iwalk g_dwalk].
  assert (T : typed_radix zero_radix) by (unfold typed_radix; cbn; repeat split; repeat constructor).
  split; [reflexivity|]. split; [reflexivity|].
  split; [destruct ira; cbn; auto|].
  split; [destruct ira as [[]|]; cbn; auto; split; [reflexivity|split; [reflexivity|apply BI]]|].
  split; [destruct dea; cbn; auto|].
  split; [destruct dra; cbn; auto|].
  split; [destruct dra as [[]|]; cbn; auto; split; [reflexivity|split; [reflexivity|apply BD]]|].
  split; [reflexivity|]. split; [reflexivity|].
  split; [destruct ira; cbn; auto|]. split; [destruct dra; cbn; auto|].
  split.
  - unfold typed. cbn [q_insn q_insn_addr q_insn_ra q_data_addr q_data_ra q_radix_insn q_radix_data].
    split; [exact W|]. split; [exact P|].
    split; [destruct ira as [[]|]; [apply BI|reflexivity]|].
    split; [destruct dea as [d|]; [apply D; reflexivity|reflexivity]|].
    split; [destruct dra as [[]|]; [apply BD|reflexivity]|]. auto.
  - split; [apply is_branch_spec; exact W|]. reflexivity.
Qed.

Lemma read_word : forall be m a, words m -> fetchable m a -> exists w, m a = Some w /\ w < 2 ^ 32 /\ read_insn be m a = Some w.
Proof.
  intros be m a W F. pose proof (read_readable be m a W F) as E. destruct F as (w & w1 & F & _).
  exists w. rewrite E, F. split; [reflexivity|]. split; [eapply W; eassumption|reflexivity].
Qed.

Section PRINT.
  Variable be xl : bool.

  Lemma xlate_ok : forall e s h pc ea i, reached h (t_maps s) -> N.of_nat (S (length h)) < 2 ^ 32 ->
    (xl = true -> page_readable (e_kernel e pc i) ea) ->
    exists maps o, xlate xl e s pc ea i = Some (set_maps s maps, o) /\ bounded o
      /\ if xl then reached (h ++ [mk_acc ea i (e_kernel e pc i)]) maps /\ answered h (mk_acc ea i (e_kernel e pc i)) o
         else reached h maps /\ o = None.
  Proof.
    intros e s h pc ea i R L P. unfold xlate. destruct xl.
    - destruct (look_ok h (t_maps s) (mk_acc ea i (e_kernel e pc i)) R L (P eq_refl)) as (st' & o & R' & A & B & E).
      unfold lookup in E. cbn [a_kernel a_ea a_iside] in E. rewrite E. exists st', o.
      destruct o as [[pa sh]|]; repeat split; auto; apply B.
    - exists (t_maps s), None. destruct s. repeat split; auto.
  Qed.

  Lemma print_wanted : forall e m s h pc, t_skip s = 0 -> t_left s <> 0 ->
    words m -> m pc = e_mem e pc -> m (pc + 4) = e_mem e (pc + 4) -> registers e -> reportable xl e pc ->
    reached h (t_maps s) -> N.of_nat (S (S (length h))) < 2 ^ 32 ->
    exists s' g q h', print_insn be xl e m s pc = Some s'
      /\ says xl h (mk_seen pc (word_at e pc) (regs_of e) (e_kernel e pc)) g h'
      /\ agrees false g q /\ reached h' (t_maps s') /\ (length h' <= length h + 2)%nat
      /\ t_out s' = t_out s ++ [q] /\ t_skip s' = 0 /\ t_pids s' = t_pids s /\ t_done s' = t_done s
      /\ t_left s' = (if unlimited (t_left s) then t_left s else t_left s - 1)
      /\ q_radix_insn q = zero_radix.
  Proof.
    intros e m s h pc SK LF W M1 M2 (g & G1 & G2) (RA & RF & RS & RP & RD) R L.
    unfold print_insn. rewrite SK. cbn [N.eqb negb].
    assert (F : fetchable m pc).
    { destruct RF as (w0 & w1 & F). exists w0, w1. rewrite M1, M2. exact F. }
    destruct (read_word be m pc W F) as (w & E1 & WL & E2). rewrite E2.
    assert (WA : word_at e pc = w) by (unfold word_at; rewrite <- M1, E1; reflexivity).
    rewrite WA in *. unfold regs_of in *. rewrite G1 in *.
    destruct (t_left s =? 0) eqn:LZ; [apply N.eqb_eq in LZ; contradiction|].
    change (t_left s =? MINUS1) with (unlimited (t_left s)).
    set (s1 := if unlimited (t_left s) then s else set_left s (t_left s - 1)).
    assert (S1 : t_maps s1 = t_maps s /\ t_skip s1 = 0 /\ t_out s1 = t_out s /\ t_pids s1 = t_pids s
        /\ t_done s1 = t_done s /\ t_left s1 = if unlimited (t_left s) then t_left s else t_left s - 1).
    { unfold s1. destruct (unlimited (t_left s)); repeat split; assumption. }
    destruct S1 as (K1 & K2 & K3 & K4 & K5 & K6). clearbody s1.
    rewrite (storage_isa w g G2).
    assert (L1 : N.of_nat (S (length h)) < 2 ^ 32) by lia.
    assert (R1 : reached h (t_maps s1)) by (rewrite K1; exact R).
    destruct (xlate_ok e s1 h pc pc true R1 L1 RP) as (mp & ira & X1 & XB & X2).
    cbv zeta. rewrite X1.
    destruct (isa_answer w g) as [|a n|] eqn:IA; [| |contradiction].
    - exists (writes (set_maps s1 mp) (fill w pc ira None None)), (as_given w pc ira None None),
        (fill w pc ira None None), (if xl then h ++ [mk_acc pc true (e_kernel e pc true)] else h).
      split; [reflexivity|]. split; [|split; [apply fill_agrees; auto; [exact I|discriminate]|]].
      + unfold says. cbn [s_word s_addr s_gprs s_kernel]. cbv zeta.
        assert (DN : data_of w g = None) by (unfold data_of; rewrite IA; reflexivity).
        rewrite DN. repeat (split; [reflexivity|]).
        destruct xl; [destruct X2 as [_ X2]; repeat split; exact X2|destruct X2 as [_ ->]; repeat split].
      + split; [destruct xl; apply X2|]. split; [destruct xl; [rewrite app_length; cbn; lia|lia]|].
        cbn [writes set_maps t_out t_skip t_pids t_done t_left]. rewrite K3. repeat split; assumption.
    - set (h1 := if xl then h ++ [mk_acc pc true (e_kernel e pc true)] else h).
      assert (HL : (length h1 <= S (length h))%nat) by (unfold h1; destruct xl; [rewrite app_length; cbn; lia|lia]).
      assert (DS : data_of w g = Some a) by (unfold data_of; rewrite IA; reflexivity).
      assert (L2 : N.of_nat (S (length h1)) < 2 ^ 32) by lia.
      assert (R2 : reached h1 (t_maps (set_maps s1 mp))) by (unfold h1; destruct xl; apply X2).
      destruct (xlate_ok e (set_maps s1 mp) h1 pc a false R2 L2) as (mp2 & dra & Y1 & YB & Y2).
      { intros T. apply RD; assumption. }
      rewrite Y1.
      exists (writes (set_maps (set_maps s1 mp) mp2) (fill w pc ira (Some a) dra)), (as_given w pc ira (Some a) dra),
        (fill w pc ira (Some a) dra), (if xl then h1 ++ [mk_acc a false (e_kernel e pc false)] else h1).
      split; [reflexivity|].
      split; [|split; [apply fill_agrees; auto; intros d DE; injection DE as <-; eapply data_lt, DS|]].
      + unfold says. cbn [s_word s_addr s_gprs s_kernel]. cbv zeta. rewrite DS.
        repeat (split; [reflexivity|]).
        subst h1. destruct xl; [destruct X2 as [_ X2]; destruct Y2 as [_ Y2]; repeat split; assumption|].
        destruct X2 as [_ ->]. destruct Y2 as [_ ->]. repeat split.
      + split; [destruct xl; apply Y2|].
        split; [subst h1; destruct xl; [rewrite app_length; cbn [length]; lia|lia]|].
        cbn [writes set_maps t_out t_skip t_pids t_done t_left]. rewrite K3. repeat split; assumption.
  Qed.
End PRINT.
