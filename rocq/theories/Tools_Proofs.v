(** Proofs for C68: the tools count the same instructions. *)
Require Import NArith ZArith List Bool Lia.
Require Import ZifyBool ZifyN ZifyNat.
Require Import Verif.Word Verif.Codec_Types Verif.Codec_Spec Verif.Writer_Model Verif.Reader_Model.
Require Import Verif.HtmBits_Spec Verif.Htm_Model Verif.Stats_Model Verif.Stats_Spec Verif.Stats_Props.
Require Import Verif.Opcode_Table Verif.Opcode_Spec Verif.Opcode_Proofs3.
Require Import Verif.Qtdis_Model Verif.Qtdis_Spec Verif.Qtdis_Proofs2.
Require Import Verif.Trace_Spec Verif.Trace_Proofs Verif.Trace8_Proofs4 Verif.Trace8_Proofs5 Verif.Trace10_Spec Verif.Trace10_Proofs6.
Require Import Verif.Trace10_Proofs7 Verif.Convert_Model Verif.Convert_Spec Verif.Convert_Proofs Verif.Convert_Proofs2 Verif.Convert_Proofs3.
Require Import Verif.Tools_Model Verif.Tools_Spec.
Require Verif.Tlb_Model Verif.Tlb_Spec Verif.Bb_Model Verif.Opcode_Props Verif.Trace8_Props Verif.Trace10_Props.
Import ListNotations.
Local Open Scope N_scope.

(** ** Pairs of address and word *)
Definition pr (q : qrec) : N * N := (q_insn_addr q, q_insn q).
Definition gpr (g : given) : N * N := (g_addr g, g_insn g).
Fixpoint pfirsts (l : list (N * N)) : list (N * N) :=
  match l with
  | [] => []
  | x :: l' => x :: (if is_prefix_word (snd x) then match l' with [] => [] | _ :: l'' => pfirsts l'' end else pfirsts l')
  end.
Fixpoint pcomplete (l : list (N * N)) : bool :=
  match l with
  | [] => true
  | x :: l' => if is_prefix_word (snd x) then match l' with [] => false | _ :: l'' => pcomplete l'' end else pcomplete l'
  end.
Lemma firsts_pr : forall n rs, (length rs <= n)%nat -> map pr (firsts rs) = pfirsts (map pr rs) /\ complete rs = pcomplete (map pr rs).
Proof.
  induction n as [|n IH]; intros [|r rs] L; cbn in L; try (split; reflexivity); [lia|].
  cbn [firsts complete map pfirsts pcomplete snd pr].
  destruct (is_prefix_word (q_insn r)).
  - destruct rs as [|r2 rs]; [split; reflexivity|]. cbn [map]. destruct (IH rs) as [-> ->]; [cbn in L; lia|]. split; reflexivity.
  - destruct (IH rs) as [-> ->]; [lia|]. split; reflexivity.
Qed.
Lemma agrees_pr : forall w l qs, Forall2 (agrees w) l qs -> map pr qs = map gpr l.
Proof.
  intros w l qs F. induction F as [|g q l qs A F IH]; [reflexivity|]. cbn [map]. rewrite IH.
  destruct A as (A1 & A2 & _). unfold pr, gpr. rewrite A1, A2. reflexivity.
Qed.
Lemma pfirsts_id : forall l, Forall (fun x => whole_word (snd x)) l -> pfirsts l = l /\ pcomplete l = true.
Proof.
  intros l F. induction F as [|x l H F IH]; [split; reflexivity|]. cbn [pfirsts pcomplete].
  unfold is_prefix_word. unfold whole_word in H. apply N.eqb_neq in H. rewrite H. destruct IH as [-> ->]. split; reflexivity.
Qed.

(** ** From the records to what qtdis says *)
Lemma says_records : forall qs slack, frames qs -> closes qs -> (4 <= length slack)%nat -> pcomplete (map pr qs) = true ->
  exists file, write_trace 0 qs = inr file
    /\ qtdis_stats slack file = Some (ppcstats (pfirsts (map pr qs)))
    /\ (forall sort, qtdis_blocks sort slack file =
          match Bb_Model.bb_run (map fst (pfirsts (map pr qs))) with
          | Bb_Model.BOk s => Some (Bb_Model.bb_dump sort s) | Bb_Model.BErr e => Some (Bb_Model.BErr e) end)
    /\ (Forall (fun x => whole_word (snd x)) (map pr qs) ->
        qtdis_lines slack file = Some (map (fun x => (fst x, [snd x])) (map pr qs))).
Proof.
  intros qs slack F C SL PC.
  destruct (firsts_pr (length qs) qs (le_n _)) as [E1 E2]. rewrite <- E2 in PC.
  destruct (written_logs (mk_options 0 true false) 0 qs slack eq_refl eq_refl F C PC SL) as (file & x & W & R & LG & _).
  destruct (written_logs (mk_options 0 false true) 0 qs slack eq_refl eq_refl F C PC SL) as (file2 & x2 & W2 & R2 & _ & CT).
  destruct (written_listing 0 qs slack eq_refl F C PC SL) as (file3 & x3 & W3 & R3 & _ & LI).
  rewrite W in W2, W3. injection W2 as <-. injection W3 as <-.
  exists file. split; [exact W|]. rewrite <- E1. split; [|split].
  - unfold qtdis_stats. rewrite R, (LG eq_refl). reflexivity.
  - intros sort. unfold qtdis_blocks. rewrite R2, (CT eq_refl). rewrite map_map. reflexivity.
  - intros WH. unfold qtdis_lines. rewrite R3, LI.
    + rewrite map_map. reflexivity.
    + rewrite Forall_forall in *. intros q I. unfold is_prefix_word. apply N.eqb_neq. apply (WH (pr q)). apply in_map. exact I.
Qed.

Lemma ppcstats_ok : forall xs, Forall wf xs -> statistics xs (ppcstats xs).
Proof.
  intros xs W. destruct (C32_counters xs W) as (s & E & R).
  assert (WI : Forall (fun i => i < 2 ^ 32) (map snd xs)).
  { apply Forall_map. eapply Forall_impl; [|exact W]. intros x H. apply H. }
  destruct (mix_real (map snd xs) WI) as (x & EX & R1 & R2).
  exists s, x. unfold ppcstats. rewrite E, EX. split; [reflexivity|]. split; [exact R|]. split; assumption.
Qed.

(** ** POWER8 and POWER9 *)
Lemma gpr_stamps : forall (l : stamps) rest,
  flat_map given_of (map (fun p => EStamp (snd p)) l ++ rest) = flat_map given_of rest.
Proof. intros l rest. induction l as [|p l IH]; [reflexivity|]. cbn [map app flat_map given_of]. exact IH. Qed.
Lemma given8 : forall items pre prev, map gpr (flat_map given_of (records8 pre prev items)) = insns8 prev items.
Proof.
  induction items as [|x items IH]; intros pre prev; [reflexivity|].
  destruct x as [w r|i|w|w]; cbn [records8 insns8]; [|  |apply IH|apply IH].
  - cbn [flat_map given_of app]. apply IH.
  - rewrite gpr_stamps. cbn [flat_map]. unfold record_of8 at 1. cbn [given_of app map]. rewrite IH. reflexivity.
Qed.
Lemma whole8_insns : forall items prev, Forall whole8 items -> Forall (fun x => whole_word (snd x)) (insns8 prev items).
Proof.
  induction items as [|x items IH]; intros prev F; [constructor|]. inversion F; subst.
  destruct x as [w r|i|w|w]; cbn [insns8]; try (apply IH; assumption). constructor; [assumption|apply IH; assumption].
Qed.
Lemma written8 : forall qs stale junk bad items, (forall n, quiet8 (junk n)) ->
  Tlb_Spec.sorter qs -> (forall z, length (stale z) = 8%nat) ->
  let ws := flat_map words8 items in
  (Z.of_nat (length ws) < 2 ^ 30)%Z -> trace8_ok 0 items ->
  Tlb_Spec.no_mixed_overlap (pages8 0 items) -> Tlb_Spec.top_unused [] (pages8 0 items) ->
  bad = true \/ other (be_val (stale (Z.of_nat (length ws)))) ->
  exists s, htm_decode qs stale junk true (bytes_of ws) bad = HOk s
    /\ frames (flat_map to_write (h_out s)) /\ closes (flat_map to_write (h_out s))
    /\ map pr (flat_map to_write (h_out s)) = insns8 0 items /\ Forall wf (insns8 0 items).
Proof.
  intros qs stale junk bad items Q QS SL ws SM OK P1 P2 OT.
  destruct (trace8_with qs stale junk true bad (J8 junk) items) as (s & E & F & _); try assumption.
  { intros n esid insn addr p. exists n. apply record8_unset. }
  { intros _. split; assumption. }
  destruct (agree8_all junk Q _ _ F (records_small items 0 [] OK (Forall_nil _))) as [A B].
  exists s. split; [exact E|].
  destruct (frames_agree false _ _ A) as [FR CL].
  - apply words_nonzero. exact B.
  - intros g q Hg Hq V. destruct (flat_map given_of _) as [|g0 l0]; [discriminate|].
    inversion A as [|? q0 ? l1 A1 A2 X1 X2]; subst. rewrite <- X2 in Hq. cbn in Hq. injection Hq as ->.
    revert X2 V. clear - F Q. intros X2 V.
    assert (IN : In q (flat_map to_write (h_out s))) by (rewrite <- X2; left; reflexivity).
    apply in_flat_map in IN. destruct IN as (r & I1 & I2). destruct r as [q1| | | | | |]; try contradiction.
    destruct I2 as [->|[]].
    assert (K : exists e, told (J8 junk) e (RInsn q)).
    { clear - F I1. induction F as [|e r l out T F IH]; [destruct I1|]. destruct I1 as [->|I1]; [eauto|auto]. }
    destruct K as (e & _ & K). destruct (K q eq_refl) as (n & U & U1 & _). rewrite U1. apply (Q n).
  - split; [exact FR|]. split; [exact CL|]. pose proof (given8 items [] 0) as G.
    split; [rewrite (agrees_pr _ _ _ A); exact G|].
    rewrite <- G. clear - A. induction A as [|g q l qs A F IH]; [constructor|]. constructor; [|exact IH].
    destruct A as (A1 & A2 & _ & _ & _ & _ & _ & _ & _ & _ & _ & (T1 & T2 & _) & _). unfold wf, gpr. cbn [fst snd].
    rewrite <- A1, <- A2. auto.
Qed.

Lemma tools8 : forall qs stale junk bad items slack, (forall n, quiet8 (junk n)) ->
  Tlb_Spec.sorter qs -> (forall z, length (stale z) = 8%nat) ->
  let ws := flat_map words8 items in
  (Z.of_nat (length ws) < 2 ^ 30)%Z -> trace8_ok 0 items ->
  Tlb_Spec.no_mixed_overlap (pages8 0 items) -> Tlb_Spec.top_unused [] (pages8 0 items) ->
  bad = true \/ other (be_val (stale (Z.of_nat (length ws)))) -> (4 <= length slack)%nat ->
  Forall whole8 items ->
  exists file, htmdecoder qs stale junk (bytes_of ws) bad = COk file
    /\ (exists r, htmdecoder_stats qs stale junk (bytes_of ws) bad = Some r /\ qtdis_stats slack file = Some r
        /\ statistics (insns8 0 items) r)
    /\ (forall sort, exists b, htmdecoder_blocks sort qs stale junk (bytes_of ws) bad = Some b
        /\ qtdis_blocks sort slack file = Some b)
    /\ qtdis_lines slack file = Some (map (fun x => (fst x, [snd x])) (insns8 0 items)).
Proof.
  intros qs stale junk bad items slack Q QS SL ws SM OK P1 P2 OT LS WH.
  destruct (written8 qs stale junk bad items Q QS SL SM OK P1 P2 OT) as (s & E & FR & CL & G & WF).
  pose proof (whole8_insns items 0 WH) as WI. destruct (pfirsts_id _ WI) as [PF PC].
  destruct (says_records _ slack FR CL LS) as (file & W & S1 & S2 & S3); [rewrite G; exact PC|].
  rewrite G, PF in *.
  destruct (Trace8_Props.C55_trace8 qs stale junk false bad items QS SL SM OK) as (s' & E' & _ & LG & BB & _);
    [discriminate|exact OT|].
  exists file. unfold htmdecoder, htmdecoder_stats, htmdecoder_blocks, ws. rewrite E, E', W. split; [reflexivity|].
  split; [|split].
  - exists (ppcstats (insns8 0 items)). rewrite LG. split; [reflexivity|]. split; [exact S1|]. apply ppcstats_ok. exact WF.
  - intros sort. rewrite S2, BB. eauto.
  - apply S3. exact WI.
Qed.

(** ** POWER10 *)
Definition alike (z z' : st10) : Prop := z_ea z = z_ea z' /\ z_ra z = z_ra z' /\ z_walks z = z_walks z'.
Lemma alike_step : forall f g z z' x, alike z z' -> alike (step10 f z x) (step10 g z' x).
Proof.
  intros f g z z' x (A & B & C). destruct x as [w r|i|w]; cbn [step10]; try (repeat split; assumption).
  unfold next10, alike, ea10, ra10, walks10. rewrite A, B, C. destruct f, g; cbn; auto.
Qed.
Lemma alike_file : forall f g items z z', alike z z' -> file10 f z items = file10 g z' items /\ insns10 f z items = insns10 g z' items.
Proof.
  intros f g. induction items as [|x items IH]; intros z z' A; [split; reflexivity|]. cbn [file10 insns10].
  destruct (IH _ _ (alike_step f g z z' x A)) as [-> ->]. destruct A as (A & _).
  destruct x as [w r|i|w]; cbn [words10]; try (split; reflexivity). unfold ea10. rewrite A. split; reflexivity.
Qed.
Lemma alike_by : forall tb items z z', alike z z' -> trace10_by true tb z items -> Forall one_data10 items -> trace10_by false tb z' items.
Proof.
  intros tb. induction items as [|x items IH]; intros z z' A OK D; [exact I|]. cbn [trace10_by] in *. destruct OK as [O1 O2].
  inversion D as [|? ? D1 D2]; subst. split; [|eapply IH; [apply alike_step; exact A|exact O2|exact D2]].
  destruct A as (A & B & C). destruct x as [w r|i|w]; try exact O1. cbn [item10_ok one_data10] in *.
  unfold insn10_ok, walks10, i_given, ea10, ra10 in *. rewrite A, B, C in O1.
  decompose [and] O1. repeat split; try assumption; try discriminate; try (intros; assumption).
  all: try (match goal with H : t_esid _ = true -> _ |- _ => apply H; assumption end).
Qed.
Lemma alike_ok : forall items z z', alike z z' -> trace10_ok true z items -> Forall one_data10 items -> trace10_ok false z' items.
Proof. intros items z z' A (tb & HT & OK) D. exists tb. split; [exact HT|]. eapply alike_by; eassumption. Qed.
Lemma given_by : forall tb items z, trace10_by true tb z items -> Forall worded10 items -> Forall whole10 items ->
  let l := map gpr (flat_map given_of (records10 true z items)) in
  pfirsts l = heads10 z items /\ pcomplete l = true.
Proof.
  intros tb. induction items as [|x items IH]; intros z OK WO WH; [split; reflexivity|]. cbn [trace10_by] in OK. destruct OK as [O1 O2].
  inversion WO as [|? ? W1 W2]; subst. inversion WH as [|? ? H1 H2]; subst. specialize (IH _ O2 W2 H2).
  cbv zeta in *. cbn [records10 heads10]. destruct x as [w r|i|w]; try exact IH.
  rewrite <- app_assoc, gpr_stamps, flat_map_app, map_app.
  cbn [worded10 whole10] in W1, H1. unfold record_of10, first_word. cbv zeta. destruct (t_prefix i) as [p|] eqn:EP.
  - assert (L : snd p < 2 ^ 64).
    { destruct O1 as (SW & _). rewrite Forall_forall in SW. apply (SW p). unfold insn10_words, prefix_words. rewrite EP.
      do 4 (apply in_or_app; right). apply in_or_app. left. now left. }
    destruct (prefix_is _ L W1) as [P1 P2].
    cbn [flat_map given_of app map gpr g_addr g_insn pfirsts pcomplete snd]. rewrite P1.
    destruct IH as [-> ->]. split; reflexivity.
  - cbn [flat_map given_of app map gpr g_addr g_insn pfirsts pcomplete snd].
    unfold is_prefix_word. unfold whole_word in H1. apply N.eqb_neq in H1. rewrite H1.
    destruct IH as [-> ->]. split; reflexivity.
Qed.
Lemma given10 : forall items z, trace10_ok true z items -> Forall worded10 items -> Forall whole10 items ->
  let l := map gpr (flat_map given_of (records10 true z items)) in
  pfirsts l = heads10 z items /\ pcomplete l = true.
Proof. intros items z (tb & _ & OK) WO WH. eapply given_by; eassumption. Qed.
Lemma heads_fst : forall items z, map fst (heads10 z items) = map fst (insns10 true z items).
Proof.
  induction items as [|x items IH]; intros z; [reflexivity|]. cbn [heads10 insns10]. rewrite !map_app, IH.
  destruct x; reflexivity.
Qed.
Lemma heads_insns : forall items z, Forall unprefixed10 items -> heads10 z items = insns10 true z items.
Proof.
  induction items as [|x items IH]; intros z U; [reflexivity|]. inversion U as [|? ? U1 U2]; subst.
  cbn [heads10 insns10]. rewrite IH by exact U2. destruct x; try reflexivity. cbn [unprefixed10] in U1.
  unfold first_word. rewrite U1. reflexivity.
Qed.
Lemma pfirsts_in : forall n l x, (length l <= n)%nat -> In x (pfirsts l) -> In x l.
Proof.
  induction n as [|n IH]; intros [|y l] x L I; cbn in L; try contradiction; [lia|].
  cbn [pfirsts] in I. destruct I as [->|I]; [now left|]. right. destruct (is_prefix_word (snd y)).
  - destruct l as [|y2 l]; [contradiction|]. right. apply IH; [cbn in L; lia|exact I].
  - apply IH; [lia|exact I].
Qed.
Lemma agrees_wf : forall w l qs, Forall2 (agrees w) l qs -> Forall wf (map gpr l).
Proof.
  intros w l qs F. induction F as [|g q l qs A F IH]; [constructor|]. constructor; [|exact IH].
  destruct A as (A1 & A2 & _ & _ & _ & _ & _ & _ & _ & _ & _ & (T1 & T2 & _) & _). unfold wf, gpr. cbn [fst snd].
  rewrite <- A1, <- A2. auto.
Qed.
Lemma insns_small : forall items z, trace10_ok true z items -> Forall (fun x => snd x < 2 ^ 32) (insns10 true z items).
Proof.
  intros items z (tb & _ & OK). revert z OK. induction items as [|x items IH]; intros z OK; [constructor|]. cbn [trace10_by] in OK. destruct OK as [O1 O2].
  cbn [insns10]. specialize (IH _ O2). destruct x as [w r|i|w]; try exact IH. constructor; [|exact IH].
  cbn [item10_ok] in O1. unfold insn10_ok in O1. cbn [snd]. apply O1.
Qed.
Lemma both_wf : forall a b : list (N * N), map fst a = map fst b -> Forall wf a -> Forall (fun x => snd x < 2 ^ 32) b -> Forall wf b.
Proof.
  induction a as [|x a IH]; intros [|y b] E W S; try discriminate E; [constructor|]. cbn in E.
  inversion W as [|? ? [W1 W2] W3]; inversion S as [|? ? S1 S2]; subst. injection E as E1 E2.
  constructor; [split; [rewrite <- E1; exact W1|exact S1]|]. apply IH; assumption.
Qed.
Lemma written10 : forall qs stale junk bad items, (forall n, quiet10 (junk n)) ->
  (forall z, length (stale z) = 8%nat) ->
  let ws := file10 true start10 items in
  (Z.of_nat (length ws) < 2 ^ 30)%Z -> trace10_ok true start10 items -> Forall worded10 items ->
  bad = true \/ other (be_val (stale (Z.of_nat (length ws)))) -> Forall whole10 items ->
  exists s, htm_decode qs stale junk true (bytes_of ws) bad = HOk s
    /\ frames (flat_map to_write (h_out s)) /\ closes (flat_map to_write (h_out s))
    /\ pfirsts (map pr (flat_map to_write (h_out s))) = heads10 start10 items
    /\ pcomplete (map pr (flat_map to_write (h_out s))) = true
    /\ Forall wf (heads10 start10 items).
Proof.
  intros qs stale junk bad items Q SL ws SM OK WO OT WH.
  destruct (trace10_with qs stale junk true bad J10 items) as (s & E & F & _); try assumption.
  { intros. apply record10_J, Q. }
  { apply suffix_J. }
  destruct (agree10_all _ _ F (records_small10 items _ good_start OK)) as (A & B & C).
  destruct (given10 items start10 OK WO WH) as [G1 G2].
  destruct (frames_agree true _ _ A) as [FR CL].
  - apply words10_good; assumption.
  - intros g q Hg Hq V. destruct (flat_map to_write (h_out s)) as [|q0 l0]; [discriminate|]. cbn in Hq. injection Hq as ->.
    inversion C as [|? ? (j & [_ Q0] & (U & _) & _) _]; subst. destruct (U V) as [_ ->]. exact Q0.
  - exists s. rewrite (agrees_pr _ _ _ A). split; [exact E|]. split; [exact FR|]. split; [exact CL|].
    split; [exact G1|]. split; [exact G2|]. rewrite <- G1.
    pose proof (agrees_wf _ _ _ A) as W. rewrite Forall_forall in *. intros x I. apply W.
    eapply pfirsts_in; [apply le_n|exact I].
Qed.
Lemma tools10 : forall qs stale junk bad items slack, (forall n, quiet10 (junk n)) ->
  (forall z, length (stale z) = 8%nat) ->
  let ws := file10 true start10 items in
  (Z.of_nat (length ws) < 2 ^ 30)%Z -> trace10_ok true start10 items -> Forall worded10 items ->
  bad = true \/ other (be_val (stale (Z.of_nat (length ws)))) -> (4 <= length slack)%nat ->
  Forall whole10 items -> Forall one_data10 items ->
  exists file, htmdecoder qs stale junk (bytes_of ws) bad = COk file
    /\ (exists r, htmdecoder_stats qs stale junk (bytes_of ws) bad = Some r /\ statistics (insns10 true start10 items) r
        /\ (Forall unprefixed10 items -> qtdis_stats slack file = Some r))
    /\ (exists r, qtdis_stats slack file = Some r /\ statistics (heads10 start10 items) r)
    /\ (forall sort, exists b, htmdecoder_blocks sort qs stale junk (bytes_of ws) bad = Some b
        /\ qtdis_blocks sort slack file = Some b).
Proof.
  intros qs stale junk bad items slack Q SL ws SM OK WO OT LS WH OD.
  destruct (written10 qs stale junk bad items Q SL SM OK WO OT WH) as (s & E & FR & CL & G & PC & WF).
  destruct (says_records _ slack FR CL LS PC) as (file & W & S1 & S2 & _).
  rewrite G in *.
  assert (AL : alike start10 start10) by (repeat split).
  destruct (alike_file true false items _ _ AL) as [EF EI].
  destruct (Trace10_Props.C56_trace10 qs stale junk false bad items SL) as (s' & E' & _ & LG & BB & _).
  { rewrite <- EF. exact SM. }
  { eapply alike_ok; eassumption. }
  { rewrite <- EF. exact OT. }
  rewrite <- EI in LG, BB. rewrite <- EF in E'.
  pose proof (both_wf _ _ (heads_fst items start10) WF (insns_small _ _ OK)) as WI.
  exists file. unfold htmdecoder, htmdecoder_stats, htmdecoder_blocks, ws. rewrite E, E', W. split; [reflexivity|].
  split; [|split].
  - exists (ppcstats (insns10 true start10 items)). rewrite LG. split; [reflexivity|]. split; [apply ppcstats_ok; exact WI|].
    intros U. rewrite <- (heads_insns _ _ U). exact S1.
  - eexists. split; [exact S1|]. apply ppcstats_ok. exact WF.
  - intros sort. rewrite S2, heads_fst, BB. eauto.
Qed.
