(** Proofs for C78: the records of written, converted and traced files. *)
Require Import NArith ZArith List Bool Lia.
Require Import Verif.Storage_Spec Verif.Step_Model Verif.Step_Spec Verif.Pids_Model Verif.Pids_Spec.
Require Import Verif.Tracer_Model Verif.Tracer_Spec Verif.Tracer_Proofs2 Verif.Tracer_Proofs3.
Require Import Verif.Word Verif.Codec_Types Verif.Branch_Spec Verif.Branch_Model Verif.Branch_Proofs.
Require Import Verif.Codec_Spec Verif.HtmBits_Spec Verif.Writer_Model Verif.Reader_Model Verif.Codec_Proofs4 Verif.Htm_Model.
Require Import Verif.Trace_Spec Verif.Trace8_Proofs5 Verif.Trace10_Spec Verif.Trace10_Proofs7.
Require Import Verif.Trace10_Proofs6.
Require Import Verif.Convert_Model Verif.Convert_Spec Verif.Convert_Proofs Verif.Convert_Proofs2 Verif.Convert_Proofs3.
Require Import Verif.Tools_Spec Verif.Tools_Proofs Verif.Tools_Proofs2.
Require Import Verif.Profile_Model Verif.Profile_Spec.
Require Verif.Tlb_Model Verif.Tlb_Spec Verif.Bbv_Model.
Import ListNotations.
Local Open Scope N_scope.

Definition seen_as (v : view) : Bbv_Model.rec := (v_addr v, v_branch v).
Lemma cond_is : forall w, w < 2 ^ 32 -> (is_conditional_branch w = true <-> conditional w).
Proof. intros w L. apply cond_spec. exact L. Qed.
Lemma expected_profile : forall rs t p, typed p -> Forall typed rs ->
  profile (List.map of_written (p :: rs)) (List.map seen_as (expected_from t p rs)).
Proof.
  induction rs as [|c rs IH]; intros t p T F.
  - cbn. split; [reflexivity|]. split; [|exact I]. destruct T as (T & _). pose proof (cond_is _ T).
    unfold discontinuity, successor. cbn [q_insn_addr]. rewrite N.eqb_refl. cbn [negb]. rewrite orb_false_r, orb_true_iff. tauto.
  - inversion F; subst. cbn [List.map expected_from]. cbn [profile of_written seen_as expected_one v_addr v_branch].
    split; [reflexivity|]. split; [|apply IH; assumption].
    cbn [List.map jump of_written fst]. destruct T as (T & _). pose proof (cond_is _ T).
    unfold discontinuity. rewrite !orb_true_iff, negb_true_iff, N.eqb_neq. tauto.
Qed.
Lemma chain_typed : forall rs p, chain_frames p rs -> Forall typed rs.
Proof.
  induction rs as [|c rs IH]; intros p C; [constructor|]. cbn [chain_frames] in C.
  destruct C as (T & _ & _ & _ & C). constructor; [exact T|]. eapply IH. exact C.
Qed.
Lemma frames_typed : forall rs, frames rs -> Forall typed rs.
Proof.
  intros [|r rs] F; [constructor|]. cbn [frames] in F. destruct F as (T & _ & _ & _ & C).
  constructor; [exact T|]. eapply chain_typed. exact C.
Qed.
Lemma written_profile : forall magic rs slack,
  magic < 2 ^ 32 -> frames rs -> closes rs -> (4 <= length slack)%nat ->
  exists file recs, write_trace magic rs = inr file /\ profiled slack file = Some recs
    /\ profile (List.map of_written rs) recs.
Proof.
  intros magic rs slack M F C SL. destruct (round_trip magic rs slack M F C SL) as (file & W & V & E & s & b & INI & _).
  exists file. unfold profiled. rewrite INI. destruct (read_trace false false slack file) as [l e]. cbn [fst snd] in *. subst e.
  exists (List.map (fun o => (q_insn_addr (o_q o), q_branch (o_q o))) l). split; [exact W|]. split; [reflexivity|].
  assert (X : List.map (fun o => (q_insn_addr (o_q o), q_branch (o_q o))) l = List.map seen_as (expected rs)).
  { rewrite <- V, map_map. reflexivity. }
  rewrite X. pose proof (frames_typed rs F) as T. destruct rs as [|r rs]; [exact I|]. inversion T; subst.
  apply expected_profile; assumption.
Qed.
Lemma agrees_jump : forall w gs qs a, Forall2 (agrees w) gs qs ->
  (jump a (List.map of_given gs) <-> jump a (List.map of_written qs)).
Proof. intros w gs qs a F. destruct F as [|g q gs qs (_ & A & _) F]; cbn; [tauto|]. rewrite A. tauto. Qed.
Lemma agrees_profile : forall w gs qs recs, Forall2 (agrees w) gs qs ->
  profile (List.map of_written qs) recs -> profile (List.map of_given gs) recs.
Proof.
  intros w gs qs recs F. revert recs. induction F as [|g q gs qs A F IH]; intros recs P; [exact P|].
  destruct recs as [|[a b] recs]; cbn [List.map profile of_written of_given] in *; [contradiction|].
  destruct P as (-> & B & P). pose proof (agrees_jump w gs qs (g_addr g) F) as J.
  destruct A as (A1 & A2 & _ & _ & _ & _ & _ & _ & _ & _ & _ & _ & A13). rewrite A2 in *. split; [reflexivity|].
  split; [|apply IH, P]. destruct (g_branch g) as [p|]; cbn [option_map].
  - destruct A13 as [A13 _]. rewrite A1 in B. tauto.
  - tauto.
Qed.

Lemma profile8 : forall qs stale junk bad items slack, (forall n, quiet8 (junk n)) ->
  Tlb_Spec.sorter qs -> (forall z, length (stale z) = 8%nat) ->
  let ws := flat_map words8 items in
  (Z.of_nat (length ws) < 2 ^ 30)%Z -> trace8_ok 0 items ->
  Tlb_Spec.no_mixed_overlap (pages8 0 items) -> Tlb_Spec.top_unused [] (pages8 0 items) ->
  bad = true \/ other (be_val (stale (Z.of_nat (length ws)))) -> (4 <= length slack)%nat ->
  exists file recs, htmdecoder qs stale junk (bytes_of ws) bad = COk file /\ profiled slack file = Some recs
    /\ profile (List.map (fun x => (fst x, None)) (insns8 0 items)) recs.
Proof.
  intros qs stale junk bad items slack Q QS SL ws SM OK P1 P2 OT LS.
  destruct (written8 qs stale junk bad items Q QS SL SM OK P1 P2 OT) as (s & E & FR & CL & G & WF).
  destruct (written_profile 0 _ slack eq_refl FR CL LS) as (file & recs & W & P & K).
  exists file, recs. unfold htmdecoder, ws. rewrite E, W. split; [reflexivity|]. split; [exact P|].
  rewrite <- G. revert K. clear. generalize (flat_map to_write (h_out s)). intros l. revert recs.
  induction l as [|q l IH]; intros recs K; [exact K|].
  destruct recs as [|[a b] recs]; cbn [List.map profile of_written pr fst] in *; [contradiction|].
  destruct K as (-> & B & K). split; [reflexivity|]. split; [|apply IH, K]. intros J. apply B. right.
  destruct l; exact J.
Qed.
Lemma profile10 : forall qs stale junk bad items slack, (forall n, quiet10 (junk n)) ->
  (forall z, length (stale z) = 8%nat) ->
  let ws := file10 true start10 items in
  (Z.of_nat (length ws) < 2 ^ 30)%Z -> trace10_ok true start10 items -> Forall worded10 items ->
  bad = true \/ other (be_val (stale (Z.of_nat (length ws)))) -> (4 <= length slack)%nat ->
  exists file recs, htmdecoder qs stale junk (bytes_of ws) bad = COk file /\ profiled slack file = Some recs
    /\ profile (List.map of_given (flat_map given_of (records10 true start10 items))) recs.
Proof.
  intros qs stale junk bad items slack Q SL ws SM OK WO OT LS.
  destruct (trace10_with qs stale junk true bad J10 items) as (s & E & F & _); try assumption.
  { intros. apply record10_J, Q. }
  { apply suffix_J. }
  destruct (agree10_all _ _ F (records_small10 items _ good_start OK)) as (A & B & C).
  destruct (frames_agree true _ _ A) as [FR CL].
  - apply words10_good; assumption.
  - intros g q Hg Hq V. destruct (flat_map to_write (h_out s)) as [|q0 l0]; [discriminate|]. cbn in Hq. injection Hq as ->.
    inversion C as [|? ? (j & [_ Q0] & (U & _) & _) _]; subst. destruct (U V) as [_ ->]. exact Q0.
  - destruct (written_profile 0 _ slack eq_refl FR CL LS) as (file & recs & W & P & K).
    exists file, recs. unfold htmdecoder, ws. rewrite E, W. split; [reflexivity|]. split; [exact P|].
    eapply agrees_profile; eassumption.
Qed.
Lemma profile_ext : forall l l' recs, Forall2 (fun x y => fst x = fst y /\ match snd x, snd y with
    | Some p, Some q => p <-> q | None, None => True | _, _ => False end) l l' -> profile l recs -> profile l' recs.
Proof.
  intros l l' recs F. revert recs. induction F as [|[a p] [a' p'] l l' (A & B) F IH]; intros recs P; [exact P|].
  destruct recs as [|[x b] recs]; cbn [profile fst snd] in *; [contradiction|]. subst a'.
  destruct P as (-> & C & P). split; [reflexivity|]. split; [|apply IH, P].
  assert (J : jump a l <-> jump a l').
  { destruct F as [|y z l l' (D & _) F]; cbn [jump]; [tauto|]. rewrite D. tauto. }
  destruct p, p'; try contradiction; tauto.
Qed.
Lemma profile_tracer : forall be xl max tp skip left l0 t evs ks slack,
  left < 2 ^ 64 -> holds max t l0 -> (length l0 <= max)%nat -> Forall2 (is_kind xl tp) evs ks ->
  (4 <= length slack)%nat ->
  let '(p, ended) := session tp skip left 0 (combine evs ks) in
  let w := wanted skip left (flat_map saw p) in
  ended = true -> N.of_nat (length w) < 2 ^ 31 -> Forall (fun x => s_word x <> 0) w ->
  exists file recs, ptracer_file (main_loop be max xl tp (start skip left t tp) evs) = FClosed file
    /\ profiled slack file = Some recs
    /\ profile (List.map (fun s => (s_addr s, Some (isa_bo_branch (s_word s) \/ isa_always_branch (s_word s)))) w) recs.
Proof.
  intros be xl max tp skip left l0 t evs ks slack LB H L0 F SL.
  pose proof (loop_ok be xl max tp skip left l0 LB L0 evs ks [] (start skip left t tp) F
    (big_start xl max tp skip left l0 LB L0 t H)) as LK. cbn [flat_map app nlen length] in LK.
  change (nlen []) with 0 in LK.
  destruct (session tp skip left 0 (combine evs ks)) as [p c]. intros w -> BD NZ. subst w.
  destruct (LK BD) as (s & E & R). rewrite E. cbn [ptracer_file]. clear LK.
  destruct R as (R1 & _ & _). destruct R1 as (_ & _ & gs & h & I3 & I4 & I5 & I6 & I7).
  assert (WG : words_good gs).
  { apply Tracer_Proofs3.words_nonzero. apply told_words in I3. apply Forall_forall. intros g G.
    apply (in_map g_insn) in G. rewrite I3 in G. apply in_map_iff in G. destruct G as (x & <- & G).
    eapply Forall_forall in NZ; [exact NZ|exact G]. }
  destruct (frames_agree false gs (t_out s) I4 WG) as [FR CL].
  { intros g q _ HQ _. destruct (t_out s) as [|q' qs]; [discriminate|]. injection HQ as ->.
    inversion I7 as [|? ? Z _]; subst. rewrite Z. reflexivity. }
  destruct (written_profile 0 _ slack eq_refl FR CL SL) as (file & recs & W & P & K).
  exists file, recs. rewrite W. split; [reflexivity|]. split; [exact P|].
  eapply profile_ext; [|eapply agrees_profile; eassumption].
  clear - I3. revert I3. generalize (wanted skip left (flat_map saw p)). generalize (@nil Pagemap_Spec.acc).
  intros h0 l T. induction T as [|h1 s g h2 l gs h3 S T IH]; [constructor|]. cbn [List.map]. constructor; [|exact IH].
  destruct S as (S1 & S2 & _ & S4 & _). unfold of_given. rewrite S4, S2, S1. cbn [fst snd option_map]. split; [reflexivity|].
  unfold conditional. tauto.
Qed.
