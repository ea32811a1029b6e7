(** Proofs for C57: records of which the fields are known. *)
Require Import NArith ZArith List Bool Lia.
Require Import ZifyBool ZifyN ZifyNat.
Require Import Verif.Word Verif.Codec_Types Verif.Branch_Spec Verif.Branch_Model Verif.Branch_Proofs.
Require Import Verif.Codec_Spec Verif.Writer_Model Verif.Reader_Model Verif.Codec_Proofs4.
Require Import Verif.Trace_Spec Verif.Convert_Spec.
Import ListNotations.
Local Open Scope N_scope.

Definition multi (r : radix) : Prop := 1 <= rx_nr_ptes r <= 4 /\ 2 <= rx_walks r <= 5.
Definition with_walk (walks : bool) (w : option radix) (r : radix) : Prop :=
  if walks then w = Some r /\ multi r else w = None /\ rx_nr_ptes r = 0.
Definition side (walks valid : bool) (w : option radix) (r : radix) : Prop :=
  if valid then with_walk walks w r else w = None.
Definition agrees (walks : bool) (g : given) (q : qrec) : Prop :=
  q_insn q = g_insn g /\ q_insn_addr q = g_addr g
  /\ known (g_ira g) (q_insn_ra_valid q) (fun x => q_insn_ra q = fst x)
  /\ known (g_ira g) (q_insn_ps_valid q) (fun x => q_insn_ps q = snd x /\ snd x <= 30)
  /\ known (g_dea g) (q_data_addr_valid q) (fun x => q_data_addr q = x)
  /\ known (g_dra g) (q_data_ra_valid q) (fun x => q_data_ra q = fst x)
  /\ known (g_dra g) (q_data_ps_valid q) (fun x => q_data_ps q = snd x /\ snd x <= 30)
  /\ known (g_gips g) (q_ginsn_ps_valid q) (fun x => q_ginsn_ps q = x /\ x <= 30)
  /\ known (g_gdps g) (q_gdata_ps_valid q) (fun x => q_gdata_ps q = x /\ x <= 30)
  /\ side walks (q_insn_ra_valid q) (g_iwalk g) (q_radix_insn q)
  /\ side walks (q_data_ra_valid q) (g_dwalk g) (q_radix_data q)
  /\ typed q
  /\ match g_branch g with
     | Some b => (q_branch q = true <-> b) /\ (q_branch q = true -> q_cond q = is_conditional_branch (q_insn q))
     | None => True
     end.

Lemma known_opt : forall A (v : option A) b (P : A -> Prop), known v b P ->
  match v with Some x => b = true /\ P x | None => b = false end.
Proof. intros. exact H. Qed.
Lemma known_here : forall A (v : option A) b (P : A -> Prop), known v b P -> b = here v.
Proof. intros A [x|] b P H; [destruct H as [-> _]|rewrite H]; reflexivity. Qed.
Lemma known_optb : forall A (v : option A) b (f : A -> N) x (P : A -> Prop), known v b P ->
  (forall y, P y -> x = f y) -> optb b x = option_map f v.
Proof. intros A [y|] b f x P H E; [destruct H as [-> H]; cbn; rewrite (E y H)|rewrite H]; reflexivity. Qed.

Lemma disc_jumps : forall w g q g' q', agrees w g q -> agrees w g' q' -> discontinuity q q' = jumps g g'.
Proof.
  intros w g q g' q' (_ & A1 & _) (_ & A2 & _). unfold discontinuity, jumps, seq. rewrite A1, A2. reflexivity.
Qed.

Lemma multi_facts : forall r, multi r -> storable r /\ walked r = true /\ single r = false
  /\ forall ty, walk_of ty r = walk_of 0 r.
Proof.
  intros r [[N1 N2] [W1 W2]].
  assert (NZ : (rx_nr_ptes r =? 0) = false) by (apply N.eqb_neq; lia).
  assert (WZ : (rx_walks r =? 0) = false) by (apply N.eqb_neq; lia).
  assert (WO : (rx_walks r =? 1) = false) by (apply N.eqb_neq; lia).
  unfold storable, walked, single, walk_of. rewrite NZ, WZ, WO. cbn [negb andb].
  repeat split; try lia; try reflexivity.
Qed.
Lemma none_facts : forall r, rx_nr_ptes r = 0 -> storable r /\ walked r = false /\ single r = false
  /\ forall ty, walk_of ty r = None.
Proof.
  intros r Z. unfold storable, walked, single, walk_of. rewrite Z. cbn. repeat split; congruence.
Qed.
Lemma side_facts : forall w g r, side w true g r ->
  storable r /\ walked r = w /\ single r = false /\ forall ty, walk_of ty r = walk_seen g.
Proof.
  intros w g r H. unfold side, with_walk in H. destruct w.
  - destruct H as [-> M]. destruct (multi_facts r M) as (F1 & F2 & F3 & F4). repeat split; try assumption.
    all: cbn [walk_seen]; try exact F4; apply F1; assumption.
  - destruct H as [-> M]. destruct (none_facts r M) as (F1 & F2 & F3 & F4). repeat split; try assumption.
    all: apply F1; assumption.
Qed.

Lemma shifts_agree : forall w g q, agrees w g q -> shifts_ok q.
Proof.
  intros w g q (_ & _ & _ & K1 & _ & _ & K2 & K3 & K4 & _). unfold shifts_ok.
  split; [|split; [|split]]; intros V; rewrite V in *.
  - destruct (g_ira g); [|discriminate]. destruct K1 as (_ & -> & L). lia.
  - destruct (g_gips g); [|discriminate]. destruct K3 as (_ & -> & L). lia.
  - destruct (g_dra g); [|discriminate]. destruct K2 as (_ & -> & L). lia.
  - destruct (g_gdps g); [|discriminate]. destruct K4 as (_ & -> & L). lia.
Qed.
Lemma pair_agree : forall w g q g' q', agrees w g q -> agrees w g' q' -> pair_frames q q'.
Proof.
  intros w g q g' q' (_ & _ & _ & _ & _ & _ & _ & _ & _ & _ & SD & _) (_ & _ & _ & _ & _ & _ & _ & _ & _ & SI & _).
  unfold pair_frames. cbv zeta.
  assert (D : q_data_ra_valid q = true -> storable (q_radix_data q) /\ walked (q_radix_data q) = w /\ single (q_radix_data q) = false).
  { intros V. rewrite V in SD. destruct (side_facts _ _ _ SD) as (F1 & F2 & F3 & _). repeat split; try assumption; apply F1; assumption. }
  assert (I : discontinuity q q' && q_insn_ra_valid q' = true ->
    storable (q_radix_insn q') /\ walked (q_radix_insn q') = w /\ single (q_radix_insn q') = false).
  { intros V. apply andb_prop in V as [_ V]. rewrite V in SI. destruct (side_facts _ _ _ SI) as (F1 & F2 & F3 & _).
    repeat split; try assumption; apply F1; assumption. }
  split; [intros V; apply D, V|]. split; [intros V; apply I, V|]. intros X.
  assert (W : w = true).
  { apply orb_prop in X as [X|X]; apply andb_prop in X as [X Y].
    - destruct (D X) as (_ & <- & _). exact Y.
    - destruct (I X) as (_ & <- & _). exact Y. }
  rewrite W in *. split; [intros V; apply D, V|]. split; [intros V; apply I, V|].
  intros (_ & V & _ & Y). destruct (I V) as (_ & _ & Z). congruence.
Qed.

(** A word after another. *)
Fixpoint words_follow (prev : given) (l : list given) : Prop :=
  match l with
  | [] => True
  | g :: l' => (g_insn g = 0 -> is_prefix_word (g_insn prev) = true) /\ words_follow g l'
  end.
Definition words_good (l : list given) : Prop :=
  match l with [] => True | g :: l' => g_insn g <> 0 /\ words_follow g l' end.

Lemma chain_agree : forall w l qs g q, agrees w g q -> Forall2 (agrees w) l qs -> words_follow g l ->
  chain_frames q qs.
Proof.
  induction l as [|g' l IH]; intros qs g q A F W; inversion F; subst; [exact I|].
  cbn [words_follow] in W. destruct W as [W1 W2]. cbn [chain_frames].
  split; [apply H1|]. split; [eapply shifts_agree; eassumption|].
  split.
  - destruct A as (-> & _). destruct H1 as (-> & _). exact W1.
  - split; [eapply pair_agree; eassumption|]. eapply IH; eassumption.
Qed.
Lemma frames_agree : forall w l qs, Forall2 (agrees w) l qs -> words_good l ->
  (forall g q, hd_error l = Some g -> hd_error qs = Some q -> q_insn_ra_valid q = false -> rx_nr_ptes (q_radix_insn q) = 0) ->
  frames qs /\ closes qs.
Proof.
  intros w l qs F W HD. split.
  - destruct F as [|g q l qs A F]; [exact I|]. cbn [words_good] in W. destruct W as [W1 W2]. cbn [frames].
    split; [apply A|]. split; [eapply shifts_agree; eassumption|].
    split; [destruct A as (-> & _); exact W1|]. split; [|eapply chain_agree; eassumption].
    unfold header_frames. destruct (q_insn_ra_valid q) eqn:V.
    + assert (S : side w true (g_iwalk g) (q_radix_insn q)) by (rewrite <- V; apply A).
      destruct (side_facts _ _ _ S) as (F1 & F2 & _). split; [|exact F1]. intros NZ. split; [reflexivity|].
      unfold side, with_walk in S. destruct w; [exact F2|]. destruct S; contradiction.
    + specialize (HD g q eq_refl eq_refl V). split; [intros X; contradiction|apply none_facts, HD].
  - unfold closes. intros V.
    assert (X : exists g, agrees w g (last qs zero_qrec) \/ qs = []).
    { clear - F. induction F as [|g q l qs A F IH]; [exists (mk_given 0 0 None None None None None None None None); right; reflexivity|].
      destruct qs as [|q' qs]; [exists g; left; exact A|]. destruct IH as [g' [IH|IH]]; [exists g'; left; exact IH|discriminate]. }
    destruct X as [g [X| ->]]; [|discriminate].
    destruct X as (_ & _ & _ & _ & _ & _ & _ & _ & _ & _ & S & _). rewrite V in S. apply (side_facts _ _ _ S).
Qed.

(** Translation along the trace. *)
Definition same_place_t (p : place) (t : trans) : Prop :=
  t_rpn t = option_map fst (l_page p) /\ t_ps t = option_map snd (l_page p)
  /\ t_gps t = l_guest p /\ t_walk t = l_walk p
  /\ match l_page p with Some x => fst x < 2 ^ 32 /\ snd x <= 30 | None => True end.

Lemma rpn_stored : forall ra s ps, ps = Some s -> rpn_of ra ps = fst (stored (ra, s)).
Proof. intros ra s ps ->. reflexivity. Qed.
Lemma first_agree : forall w g q, agrees w g q -> same_place_t (first_place g) (first_trans q).
Proof.
  intros w g q (_ & _ & K1 & K2 & _ & _ & _ & K3 & _ & S & _).
  unfold same_place_t, first_trans, first_place. cbn [t_rpn t_ps t_gps t_walk l_page l_guest l_walk].
  destruct (g_ira g) as [[ra s]|]; cbn [known option_map fst snd] in *.
  - destruct K1 as [V1 E1], K2 as (V2 & E2 & L). rewrite V1, V2, E1, E2 in *. cbn [optb andb].
    split; [reflexivity|]. split; [reflexivity|]. split.
    { destruct (g_gips g); cbn [known] in K3; [destruct K3 as (-> & -> & _)|rewrite K3]; reflexivity. }
    split; [apply (side_facts _ _ _ S)|]. unfold stored. cbn [fst snd]. split; [apply N.mod_lt; discriminate|exact L].
  - rewrite K1, K2 in *. cbn [optb andb]. split; [reflexivity|]. split; [reflexivity|]. split.
    { destruct (g_gips g); cbn [known] in K3; [destruct K3 as (-> & -> & _)|rewrite K3]; reflexivity. }
    split; [cbn [side] in S; rewrite S; reflexivity|exact I].
Qed.
Lemma swapped_exchanged : forall w g q g' q', agrees w g q -> agrees w g' q' ->
  match exchanged g g' with
  | Some x => swapped q q' = true /\ q_ginsn_ps q' = x /\ x <= 30
  | None => swapped q q' = false
  end.
Proof.
  intros w g q g' q' A A'. pose proof (disc_jumps _ _ _ _ _ A A') as D.
  destruct A as (_ & _ & _ & _ & _ & _ & K & _). destruct A' as (_ & _ & _ & _ & _ & _ & _ & K' & _).
  unfold exchanged, swapped. rewrite D. destruct (g_dra g) as [[ra d]|]; cbn [known] in K.
  - destruct K as [-> _]. destruct (g_gips g') as [x|]; cbn [known] in K'.
    + destruct K' as (-> & E & L). destruct (jumps g g'); cbn; [repeat split; assumption|reflexivity].
    + rewrite K'. apply andb_false_iff. left. apply andb_false_r.
  - rewrite K. apply andb_false_r.
Qed.
Lemma next_agree : forall w g q g' q' p t, agrees w g q -> agrees w g' q' -> same_place_t p t ->
  same_place_t (next_place p g g') (next_trans t q q').
Proof.
  intros w g q g' q' p t A A' (T1 & T2 & T3 & T4 & T5).
  pose proof (disc_jumps _ _ _ _ _ A A') as D. pose proof (swapped_exchanged _ _ _ _ _ A A') as SW.
  unfold next_trans, next_place. rewrite D. destruct (jumps g g') eqn:JU; [|repeat split; try assumption; apply T5].
  destruct A as (_ & _ & _ & _ & _ & _ & KD & _). destruct A' as (_ & _ & K1 & K2 & _ & _ & _ & K3 & _ & S & _).
  unfold same_place_t. cbn [t_rpn t_ps t_gps t_walk l_page l_guest l_walk].
  assert (G : por (optb (q_ginsn_ps_valid q') (if swapped q q' then q_data_ps q else q_ginsn_ps q')) (t_gps t)
    = por (match exchanged g g' with Some _ => option_map snd (g_dra g) | None => g_gips g' end) (l_guest p)).
  { rewrite T3. f_equal. unfold exchanged in *. rewrite JU in *.
    destruct (g_gips g') as [x|]; cbn [known] in K3.
    - destruct K3 as (V & E & _). rewrite V. cbn [optb]. destruct (g_dra g) as [[ra d]|]; cbn [known] in KD.
      + destruct SW as (-> & _). destruct KD as (_ & -> & _). reflexivity.
      + rewrite SW, E. reflexivity.
    - rewrite K3. destruct (g_dra g) as [[ra d]|]; reflexivity. }
  destruct (g_ira g') as [[ra s]|]; cbn [known option_map fst snd] in *.
  - destruct K1 as [V1 E1], K2 as (V2 & E2 & L). rewrite V1, V2, E1, E2 in *. cbn [optb por].
    split; [reflexivity|]. split; [reflexivity|]. split; [exact G|]. split.
    + destruct (side_facts _ _ _ S) as (_ & _ & _ & F). rewrite F, T4. reflexivity.
    + unfold stored. cbn [fst snd]. split; [apply N.mod_lt; discriminate|exact L].
  - rewrite K1, K2 in *. cbn [optb por]. split; [exact T1|]. split; [exact T2|]. split; [exact G|].
    cbn [side] in S. rewrite S. split; [exact T4|exact T5].
Qed.

Lemma located_ra : forall rpn s ps a, ps = Some s -> rpn < 2 ^ 32 -> s <= 30 -> ra_of rpn ps a = located (rpn, s) a.
Proof.
  intros rpn s ps a -> R S. unfold ra_of, located. cbn [dflt fst snd]. rewrite N.mod_small; [reflexivity|].
  assert (2 ^ s <= 2 ^ 30) by (apply N.pow_le_mono_r; lia).
  change (2 ^ 64) with (2 ^ 32 * 2 ^ 32). apply N.mul_lt_mono; [exact R|].
  eapply N.le_lt_trans; [eassumption|reflexivity].
Qed.

Lemma one_agree : forall w g q q' p t swap next, agrees w g q -> same_place_t p t ->
  q_insn_addr q' = next ->
  match swap with
  | Some x => swapped q q' = true /\ q_ginsn_ps q' = x /\ x <= 30
  | None => swapped q q' = false
  end -> g_insn g < 2 ^ 32 ->
  shows p g swap next (expected_one t q q').
Proof.
  intros w g q q' p t swap next (A1 & A2 & A3 & A4 & A5 & A6 & A7 & A8 & A9 & A10 & A11 & A12 & A13) (T1 & T2 & T3 & T4 & T5) NX SW LW.
  assert (D : discontinuity q q' = true <-> next <> seq g).
  { unfold discontinuity, seq. rewrite NX, A2. rewrite negb_true_iff, N.eqb_neq. reflexivity. }
  unfold shows, expected_one. cbv zeta. cbn [v_insn v_addr v_ra v_ps v_gps v_walk v_daddr v_dps v_dra v_gdps v_dwalk v_next v_taken v_branch v_cond].
  split; [exact A1|]. split; [exact A2|]. split.
  { rewrite T1, A2. destruct (l_page p) as [[rpn s]|]; cbn [option_map fst snd] in *; [|reflexivity].
    f_equal. apply located_ra; [exact T2|apply T5|apply T5]. }
  split; [exact T2|]. split; [exact T3|]. split; [exact T4|].
  assert (DA : optb (q_data_addr_valid q) (q_data_addr q) = g_dea g).
  { destruct (g_dea g); cbn [known] in A5; [destruct A5 as [-> ->]|rewrite A5]; reflexivity. }
  split; [exact DA|]. rewrite DA.
  assert (DP : optb (q_data_ps_valid q) (if swapped q q' then q_ginsn_ps q' else q_data_ps q)
     = option_map (fun x => dflt swap (snd x)) (g_dra g)).
  { destruct (g_dra g) as [[ra d]|]; cbn [known] in A7; [|rewrite A7; reflexivity].
    destruct A7 as (-> & -> & _). cbn [optb option_map snd]. f_equal.
    destruct swap; [destruct SW as (-> & -> & _)|rewrite SW]; reflexivity. }
  split; [exact DP|]. split.
  { rewrite DP. destruct (g_dra g) as [[ra d]|]; cbn [known option_map] in *; [|rewrite A6; reflexivity].
    destruct A6 as [-> ->], A7 as (-> & -> & L). cbn [optb fst snd]. f_equal.
    rewrite (located_ra _ (dflt swap d)); try reflexivity.
    - apply N.mod_lt. discriminate.
    - destruct swap; cbn [dflt]; [apply SW|exact L]. }
  split.
  { destruct (g_gdps g); cbn [known] in A9; [destruct A9 as (-> & -> & _)|rewrite A9]; reflexivity. }
  split.
  { destruct (q_data_ra_valid q); cbn [side] in A11.
    - destruct (side_facts _ _ _ A11) as (_ & _ & _ & F). apply F.
    - rewrite A11. reflexivity. }
  split; [exact NX|]. split; [exact D|].
  destruct (g_branch g) as [b|]; [|exact I]. destruct A13 as [B1 B2].
  assert (W : q_insn q < w32) by (rewrite A1; exact LW).
  pose proof (cond_spec _ W) as CS. rewrite A1 in CS. fold (conditional (g_insn g)) in CS.
  pose proof (cond_uncond_disjoint _ W) as CU.
  rewrite A1 in CU, B2 |- *.
  destruct (q_branch q) eqn:QB.
  - assert (b) by (apply B1; reflexivity). cbn [orb andb]. rewrite (B2 eq_refl). split; [tauto|].
    rewrite andb_true_iff, negb_true_iff, CS. split; [tauto|]. intros [C _]. split; [exact C|].
    apply CS in C. rewrite C in CU. exact CU.
  - assert (~ b) by (intros B; apply B1 in B; discriminate). cbn [orb andb].
    destruct (discontinuity q q') eqn:DD; cbn [orb].
    + assert (next <> seq g) by (apply D; reflexivity). split; [tauto|]. split; [discriminate|tauto].
    + assert (~ next <> seq g) by (intros B; apply D in B; discriminate). rewrite CS. tauto.
Qed.

Lemma from_agree : forall w l qs g q p t, agrees w g q -> Forall2 (agrees w) l qs -> same_place_t p t ->
  Forall (fun g => g_insn g < 2 ^ 32) (g :: l) -> shown p g l (expected_from t q qs).
Proof.
  induction l as [|g' l IH]; intros qs g q p t A F T L; inversion L; subst; inversion F; subst; cbn [expected_from shown].
  - split; [|reflexivity]. eapply one_agree; try eassumption.
    + cbn [successor q_insn_addr]. destruct A as (_ & -> & _). reflexivity.
    + unfold swapped, discontinuity, successor. cbn [q_insn_addr]. rewrite N.eqb_refl. reflexivity.
  - split.
    + eapply one_agree; try eassumption; [apply H3|]. eapply swapped_exchanged; eassumption.
    + eapply IH; try eassumption. eapply next_agree; eassumption.
Qed.
Lemma expected_agree : forall w l qs, Forall2 (agrees w) l qs -> Forall (fun g => g_insn g < 2 ^ 32) l ->
  converted l (expected qs).
Proof.
  intros w l qs F L. destruct F as [|g q l qs A F]; [reflexivity|]. cbn [converted expected].
  eapply from_agree; try eassumption. eapply first_agree. eassumption.
Qed.

Lemma convert_agree : forall w l qs slack, Forall2 (agrees w) l qs -> words_good l ->
  Forall (fun g => g_insn g < 2 ^ 32) l ->
  (forall g q, hd_error l = Some g -> hd_error qs = Some q -> q_insn_ra_valid q = false -> rx_nr_ptes (q_radix_insn q) = 0) ->
  (4 <= length slack)%nat ->
  exists bytes, write_trace 0 qs = inr bytes
    /\ converted l (map view_of (fst (read_trace false false slack bytes)))
    /\ snd (read_trace false false slack bytes) = EndFalse.
Proof.
  intros w l qs slack F W L HD SL. destruct (frames_agree _ _ _ F W HD) as [FR CL].
  destruct (round_trip 0 qs slack eq_refl FR CL SL) as (bytes & B1 & B2 & B3 & _).
  exists bytes. split; [exact B1|]. rewrite B2. split; [|exact B3]. eapply expected_agree; eassumption.
Qed.
