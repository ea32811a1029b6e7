(** Proofs for C57: POWER10. *)
Require Import NArith ZArith List Bool Lia.
Require Import ZifyBool ZifyN ZifyNat.
Require Import Verif.Word Verif.Codec_Types Verif.HtmBits_Spec Verif.HtmBits_Proofs Verif.Htm_Model.
Require Import Verif.Branch_Model.
Require Import Verif.Codec_Spec Verif.Writer_Model Verif.Reader_Model.
Require Import Verif.Pwc_Model Verif.Pwc_Spec Verif.Pwc_Proofs Verif.Xlate_Model Verif.Xlate_Spec Verif.Xlate_Proofs Verif.Xlate_Full.
Require Import Verif.Trace_Spec Verif.Trace_Proofs Verif.Trace8_Proofs Verif.Trace10_Spec Verif.Trace10_Proofs Verif.Trace10_Proofs2 Verif.Trace10_Proofs3 Verif.Trace10_Proofs4 Verif.Trace10_Proofs6.
Require Import Verif.Convert_Model Verif.Convert_Spec Verif.Convert_Proofs Verif.Convert_Proofs2.
Require Verif.Tlb_Model.
Import ListNotations.
Local Open Scope N_scope.

(** ** Walks *)
Definition good_rec (r : radix) : Prop := multi r /\ typed_radix r.
Definition good_op (o : eop) : Prop :=
  match o with EIns host _ _ rec guest => good_rec rec /\ shift_ok host /\ shift_ok guest | EGet _ _ _ => True end.
Definition good_tr (t : trans) : Prop :=
  let '(rec, h, g) := t in h = 0 /\ g = 0 \/ good_rec rec /\ shift_ok h /\ (g = 0 \/ shift_ok g).
Lemma good_none : good_tr no_trans. Proof. left. split; reflexivity. Qed.

Lemma good_answer : forall h s a r v, Forall good_op h -> e_answer h s a r = Some v ->
  good_rec (ev_rec v) /\ shift_ok (ev_host v) /\ shift_ok (ev_guest v).
Proof.
  intros h s a r v OK E. unfold e_answer in E. destruct (e_matches h s a r) as [|[[rec0 host0] guest0] l] eqn:M; [discriminate|].
  assert (G : forall rec host guest, In (rec, host, guest) ((rec0, host0, guest0) :: l) ->
    good_rec rec /\ shift_ok host /\ shift_ok guest).
  { intros rec host guest I. rewrite <- M in I. destruct (matches_in _ _ _ _ _ _ _ I) as (x & y & J).
    rewrite Forall_forall in OK. apply (OK _ J). }
  destruct (last l (rec0, host0, guest0)) as [[rec host1] guest] eqn:L. injection E as <-. cbn [ev_rec ev_host ev_guest].
  assert (I : In (rec, host1, guest) ((rec0, host0, guest0) :: l)).
  { rewrite <- L. clear. destruct l as [|p l] using rev_ind; [now left|]. rewrite last_last. right. apply in_or_app. right. now left. }
  destruct (G _ _ _ I) as (G1 & _ & G2). destruct (G rec0 host0 guest0 (or_introl eq_refl)) as (_ & G3 & _).
  split; [exact G1|split; assumption].
Qed.
Lemma good_seen : forall h a r v, Forall good_op h -> seen h a r = Some v ->
  good_rec (ev_rec v) /\ shift_ok (ev_host v) /\ shift_ok (ev_guest v).
Proof.
  intros h a r v OK. unfold seen.
  destruct (e_answer h 30 a r) as [v0|] eqn:E0; [intros [= <-]; exact (good_answer _ _ _ _ _ OK E0)|].
  destruct (e_answer h 21 a r) as [v1|] eqn:E1; [intros [= <-]; exact (good_answer _ _ _ _ _ OK E1)|].
  destruct (e_answer h 16 a r) as [v2|] eqn:E2; [intros [= <-]; exact (good_answer _ _ _ _ _ OK E2)|].
  intros E. exact (good_answer _ _ _ _ _ OK E).
Qed.
Lemma good_at : forall rec s a, good_rec rec -> s = 0 \/ shift_ok s -> good_rec (at_offset rec s a).
Proof.
  intros rec s a [[M1 M2] (T1 & T2 & T3 & T4 & T5 & T6)] S.
  assert (RO : rec_ok rec) by (split; [lia|split; assumption]).
  destruct (at_offset_ok rec s a RO S) as (_ & _ & _ & _ & _ & L & F).
  split; [split; [exact M1|exact M2]|]. repeat split; try assumption.
Qed.

Lemma fill_length : forall n l, length (fill n l) = n.
Proof. intros. unfold fill. rewrite firstn_length, app_length, repeat_length. lia. Qed.
Lemma fill_small : forall n l, word64s l -> word64s (fill n l).
Proof.
  intros n l W. unfold fill, word64s. apply Forall_forall. intros x I.
  assert (J : In x (l ++ repeat 0 n)).
  { rewrite <- (firstn_skipn n (l ++ repeat 0 n)). apply in_or_app. now left. }
  apply in_app_or in J as [J|J].
  - unfold word64s in W. rewrite Forall_forall in W. exact (W x J).
  - apply repeat_spec in J. subst. reflexivity.
Qed.
Lemma max_bounds : forall (l : list host_walk) lo hi, Forall (fun h => lo <= N.of_nat (length (hw_ptes h)) <= hi) l ->
  l <> [] -> lo <= fold_right N.max 0 (map (fun h => N.of_nat (length (hw_ptes h))) l) <= hi.
Proof.
  intros l lo hi F. induction F as [|h l H F IH]; intros NE; [congruence|]. cbn [map fold_right].
  destruct l as [|h' l]; [cbn; lia|]. specialize (IH ltac:(discriminate)). lia.
Qed.

Lemma good_walk : forall t, fw_ok t -> fst (fw_final t) < 2 ^ 64 ->
  Forall (fun g => hw_ra (snd g) < 2 ^ 64) (fw_guest t) -> good_rec (fw_radix t).
Proof.
  intros t (H & G & LEN & _) FIN RAS.
  assert (L3 : (length (fw_guest t) = 3 \/ length (fw_guest t) = 4)%nat) by tauto.
  assert (HO : Forall host_ok (map snd (fw_guest t) ++ [snd (fw_final t)])).
  { unfold all_hosts in H. apply Forall_app in H. apply H. }
  assert (HR : word64s (map (fun g => hw_ra (snd g)) (fw_guest t))) by (unfold word64s; apply Forall_map; exact RAS).
  split.
  - unfold multi, fw_radix. cbn [rx_nr_ptes rx_walks]. split.
    + assert (X : 2 <= fold_right N.max 0 (map (fun h => N.of_nat (length (hw_ptes h))) (map snd (fw_guest t) ++ [snd (fw_final t)])) <= 4); [|lia].
      apply max_bounds.
      * eapply Forall_impl; [|exact HO]. intros h (X & _). lia.
      * destruct (map snd (fw_guest t)); discriminate.
    + rewrite app_length, map_length. cbn [length]. lia.
  - unfold typed_radix, fw_radix. cbn [rx_host_ptes rx_host_real rx_guest_real]. repeat split.
    + rewrite firstn_length, app_length, repeat_length. lia.
    + apply Forall_forall. intros row I.
      assert (J : In row (map (fun h => fill 4 (hw_ptes h)) (map snd (fw_guest t) ++ [snd (fw_final t)]) ++ repeat [0; 0; 0; 0] 5)).
      { rewrite <- (firstn_skipn 5 (_ ++ repeat [0; 0; 0; 0] 5)). apply in_or_app. now left. }
      apply in_app_or in J as [J|J].
      * apply in_map_iff in J as (h & <- & J). split; [apply fill_length|]. apply fill_small.
        rewrite Forall_forall in HO. apply (HO h J).
      * apply repeat_spec in J. subst. split; [reflexivity|]. repeat constructor.
    + apply fill_length.
    + apply fill_small. exact HR.
    + apply fill_length.
    + apply fill_small. unfold word64s. apply Forall_app. split; [apply Forall_map; exact G|].
      constructor; [exact FIN|constructor].
Qed.

Lemma good_translate : forall tb hist h hv reloc g d a r, tables_good tb -> Forall good_op h -> given_ok tb hist hv reloc g a r ->
  (forall y, g = Some y -> xl_ok d y) ->
  Forall good_op (fst (translate h hv reloc g a r)) /\ good_tr (or_none (snd (translate h hv reloc g a r))).
Proof.
  intros tb hist h hv reloc [y|] d a r HT F G X; cbn [translate fst snd or_none].
  - destruct (given_walk tb hist d y hv reloc a r HT (X y eq_refl) G) as (FO & F1 & F2).
    pose proof (good_walk (y_walk y) FO F1 F2) as W.
    destruct (Xlate_Full.shifts_ok (y_walk y)) as [S1 S2]. split.
    + apply Forall_app. split; [exact F|]. constructor; [|constructor]. split; [exact W|split; assumption].
    + right. split; [exact W|]. split; [exact S1|now right].
  - split; [exact F|]. destruct hv; [exact good_none|]. pose proof (good_seen h a r) as S.
    destruct (seen h a r) as [v|]; [|exact good_none]. destruct (S v F eq_refl) as (S1 & S2 & S3).
    destruct reloc; cbn [or_none].
    + right. split; [apply good_at; [exact S1|now right]|]. split; [exact S2|now right].
    + right. split; [exact S1|]. split; [exact S2|now left].
Qed.
Lemma walk_for_ok : forall d l r y, Forall (xl_ok d) l -> walk_for l r = Some y -> xl_ok d y.
Proof.
  intros d l r y F E. unfold walk_for in E. apply find_some in E as [I _]. rewrite Forall_forall in F. exact (F y I).
Qed.

(** ** States *)
Definition good_z (z : st10) : Prop :=
  z_ea z < 2 ^ 64 /\ z_ra z < 2 ^ 64 /\ z_ra z mod 4096 = 0 /\ Forall good_op (z_seen z) /\ good_tr (z_cur z).
Lemma good_start : good_z start10.
Proof. repeat split; try constructor; split; reflexivity. Qed.

Lemma data_in : forall i tb h l p, data_ok i tb h l -> In p l ->
  exists h', given_ok tb h' (t_hv i) (t_dr i) (d_given i p) (dea10 p) (dra10 p).
Proof.
  intros i tb h l. revert h. induction l as [|q l IH]; intros h p D I; [contradiction|]. destruct D as [D1 D2].
  destruct I as [->|I]; [eexists; exact D1|]. eapply IH; eassumption.
Qed.
Section STEP.
  Variable i : insn10.
  Variable z : st10.
  Variable tb : option Resume_Spec.tables.
  Hypothesis HT : tables_good tb.
  Hypothesis GZ : good_z z.
  Hypothesis OK : insn10_ok i z tb true.

  Lemma good_ea : ea10 i z < 2 ^ 64.
  Proof.
    destruct GZ as (E & _). destruct OK as (_ & _ & _ & _ & _ & OF & _). clear OK GZ. unfold ea10, addr10, line10.
    destruct (t_addr i) as [[[h a] r]|].
    - pose proof (field_lt 64 (snd a) 0 56) as B. change (2 ^ (56 - 0 + 1)) with (2 ^ 57) in B. lia.
    - lia.
  Qed.
  Lemma good_ra : ra10 i z < 2 ^ 64 /\ ra10 i z mod 4096 = 0.
  Proof.
    destruct GZ as (_ & E1 & E2 & _). clear OK GZ. unfold ra10, page10. destruct (t_addr i) as [[[h a] r]|]; [|split; assumption].
    pose proof (field_lt 64 (snd r) 0 39) as B. change (2 ^ (39 - 0 + 1)) with (2 ^ 40) in B. lia.
  Qed.
  Lemma good_i : Forall good_op (fst (i_trans i z)) /\ good_tr (or_none (snd (i_trans i z))).
  Proof.
    destruct GZ as (_ & _ & _ & F & _).
    destruct OK as (_ & _ & _ & _ & _ & _ & _ & FX & _ & _ & _ & _ & _ & _ & _ & _ & W). destruct (W eq_refl) as (G & _).
    unfold i_trans. eapply (good_translate tb _ _ _ _ _ false); [exact HT|exact F|exact G|].
    intros y E. unfold i_given in E. destruct (t_addr i); [|discriminate]. eapply walk_for_ok; eassumption.
  Qed.
  Lemma good_seen_i : Forall good_op (seen_i i z).
  Proof. unfold seen_i. destruct (t_addr i); [apply good_i|apply GZ]. Qed.
  Lemma good_cur : good_tr (cur10 i z).
  Proof.
    unfold cur10. destruct (t_addr i); [apply good_i|]. destruct GZ as (_ & _ & _ & _ & C).
    destruct (z_cur z) as [[rec h] g]. destruct (inside i && negb (h =? 0)) eqn:E; [|exact C].
    apply andb_true_iff in E as [_ E]. apply negb_true_iff, N.eqb_neq in E.
    destruct C as [[C _]|(C1 & C2 & C3)]; [contradiction|]. right. split; [apply good_at; assumption|split; assumption].
  Qed.
  Lemma good_d : forall h p, Forall good_op h -> In p (t_data i) ->
    Forall good_op (fst (d_trans i h p)) /\ good_tr (or_none (snd (d_trans i h p))).
  Proof.
    intros h p F I.
    destruct OK as (_ & _ & _ & _ & _ & _ & _ & _ & FD & _ & _ & _ & _ & _ & _ & _ & W). destruct (W eq_refl) as (_ & G & _).
    destruct (data_in _ _ _ _ _ G I) as (hist & GP).
    unfold d_trans. eapply (good_translate tb hist _ _ _ _ true); [exact HT|exact F|exact GP|].
    intros y E. eapply walk_for_ok; eassumption.
  Qed.
  Lemma good_seen10 : Forall good_op (seen10 i z).
  Proof.
    unfold seen10. destruct (t_esid i); [exact good_seen_i|].
    assert (X : forall l h, incl l (t_data i) -> Forall good_op h ->
      Forall good_op (fold_left (fun h p => fst (d_trans i h p)) l h)).
    { induction l as [|p l IH]; intros h I F; [exact F|]. cbn [fold_left]. apply IH.
      - intros q Q. apply I. now right.
      - apply good_d; [exact F|]. apply I. now left. }
    apply X; [apply incl_refl|exact good_seen_i].
  Qed.
  Lemma good_dtrans : good_tr (dtrans10 i z).
  Proof.
    unfold dtrans10. destruct (data10 i) as [p|] eqn:E; [|exact good_none]. apply good_d; [exact good_seen_i|].
    unfold data10 in E. destruct (t_esid i); [discriminate|]. destruct (t_data i); [discriminate|]. injection E as ->. now left.
  Qed.
  Lemma good_next : good_z (next10 i z true).
  Proof.
    unfold next10, good_z. cbn [z_ea z_ra z_seen z_cur]. split; [exact good_ea|]. split; [apply good_ra|].
    split; [apply good_ra|]. split; [exact good_seen10|exact good_cur].
  Qed.
End STEP.

(** ** Records *)
Definition small_shift (o : option N) : Prop := match o with Some x => x <= 30 | None => True end.
Definition small_walk {A} (o : option A) (w : option radix) : Prop :=
  match o, w with Some _, Some r => good_rec r | None, None => True | _, _ => False end.
Definition small10 (e : erec) : Prop :=
  match e with
  | EStamp r => no_insn r
  | EInsn _ _ _ _ _ => False
  | EInsn10 insn addr ira dea dra _ _ gips gdps iwalk dwalk =>
      insn < 2 ^ 32 /\ addr < 2 ^ 64 /\ small_pair ira /\ small_addr dea /\ small_pair dra
      /\ small_shift gips /\ small_shift gdps /\ small_walk ira iwalk /\ small_walk dra dwalk
  end.
Lemma shift_le : forall s, shift_ok s -> s <= 30.
Proof. intros s [->|[->|[->| ->]]]; lia. Qed.
Lemma small_real : forall t a r, good_tr t -> r < 2 ^ 64 -> r mod 4096 = 0 ->
  small_pair (real10 t a r) /\ small_walk (real10 t a r) (walk10 t) /\ small_shift (guest10 t).
Proof.
  intros [[rec h] g] a r G L M. unfold real10, walk10, guest10.
  destruct G as [[-> ->]|(G1 & G2 & G3)]; [repeat split|].
  pose proof (shift_le _ G2). destruct (N.eqb_spec h 0) as [->|_].
  { destruct G2 as [X|[X|[X|X]]]; discriminate. }
  split; [cbn [small_pair fst snd]; split; [lia|assumption]|]. split; [exact G1|].
  destruct (g =? 0) eqn:GE; [exact I|]. cbn. destruct G3 as [->|G3]; [discriminate|apply shift_le; exact G3].
Qed.
Lemma record_small10 : forall i z tb, tables_good tb -> good_z z -> insn10_ok i z tb true ->
  Forall small10 (record_of10 i z).
Proof.
  intros i z tb HT GZ OK. pose proof (good_ea i z tb GZ OK) as EA. pose proof (good_ra i z GZ) as (RA & RM).
  destruct (small_real _ (ea10 i z) _ (good_cur i z tb HT GZ OK) RA RM) as (C1 & C2 & C3).
  pose proof OK as (SW & _ & _ & _ & INS & _).
  assert (W : forall w b c, w < 2 ^ 32 -> small10 (EInsn10 w (ea10 i z) (if t_esid i then None else real10 (cur10 i z) (ea10 i z) (ra10 i z))
        (option_map dea10 (data10 i))
        match data10 i with Some p => real10 (dtrans10 i z) (dea10 p) (dra10 p) | None => None end
        b c (guest10 (cur10 i z)) (guest10 (dtrans10 i z))
        (if t_esid i then None else walk10 (cur10 i z)) (walk10 (dtrans10 i z)))).
  { intros w b c WL. cbn [small10]. split; [exact WL|]. split; [exact EA|].
    split; [destruct (t_esid i); [exact I|exact C1]|].
    assert (D : small_addr (option_map dea10 (data10 i))
      /\ small_pair match data10 i with Some p => real10 (dtrans10 i z) (dea10 p) (dra10 p) | None => None end
      /\ small_walk match data10 i with Some p => real10 (dtrans10 i z) (dea10 p) (dra10 p) | None => None end (walk10 (dtrans10 i z))
      /\ small_shift (guest10 (dtrans10 i z))).
    { pose proof (good_dtrans i z tb HT GZ OK) as GD. destruct (data10 i) as [p|] eqn:E.
      - destruct (dra_lt p) as [D1 D2]. destruct (small_real _ (dea10 p) _ GD D1 D2) as (X1 & X2 & X3).
        split; [|split; [exact X1|split; [exact X2|exact X3]]]. cbn [option_map small_addr]. unfold dea10.
        unfold data10 in E. destruct (t_esid i); [discriminate|]. destruct (t_data i) as [|p' l] eqn:ED; [discriminate|].
        injection E as ->. rewrite Forall_forall in SW. apply (SW (fst p)). unfold insn10_words. rewrite ED.
        do 5 (apply in_or_app; right). now left.
      - unfold dtrans10. rewrite E. repeat split. }
    destruct D as (D1 & D2 & D3 & D4). split; [exact D1|]. split; [exact D2|]. split; [exact C3|]. split; [exact D4|].
    split; [destruct (t_esid i); [exact I|exact C2]|exact D3]. }
  unfold record_of10. cbv zeta. destruct (t_prefix i) as [p|] eqn:EP.
  - constructor; [|constructor; [|constructor]].
    + apply W. pose proof (field_lt 64 (snd p) 0 31) as B. exact B.
    + cbn [small10]. repeat split; try exact INS. apply N.mod_lt. discriminate.
  - constructor; [|constructor]. apply W. exact INS.
Qed.

Definition J10 (q : qrec) : Prop :=
  exists j, quiet10 j /\ unset j q /\ (q_branch q = true -> q_cond q = is_conditional_branch (q_insn q)).
Lemma record10_J : forall j esid branch insn addr real rec hps gps d drec dhps dgps, quiet10 j ->
  J10 (record10 j esid branch insn addr real rec hps gps d drec dhps dgps).
Proof.
  intros j esid branch insn addr real rec hps gps d drec dhps dgps Q. exists j. split; [exact Q|]. unfold record10, unset.
  cbn [q_insn_ra_valid q_insn_ra q_radix_insn q_data_addr_valid q_data_addr q_data_ra_valid q_data_ra q_radix_data q_branch q_cond q_insn].
  split; [|reflexivity]. split; [|split].
  - intros ->. split; reflexivity.
  - intros ->. reflexivity.
  - intros ->. split; reflexivity.
Qed.
Lemma suffix_J : forall insn addr, J10 (suffix_record insn addr).
Proof.
  intros insn addr. exists (suffix_record 0 0). split.
  - split; [|reflexivity]. unfold typed, suffix_record. cbn [q_insn q_insn_addr q_insn_ra q_data_addr q_data_ra q_radix_insn q_radix_data].
    assert (T : typed_radix zero_radix).
    { unfold typed_radix, zero_radix. cbn. repeat split; repeat constructor. }
    repeat split; try apply T; try reflexivity.
  - split; [repeat split|intros X; discriminate X].
Qed.

Lemma agrees10 : forall j insn addr ira dea dra b c gips gdps iwalk dwalk q, quiet10 j ->
  tells (EInsn10 insn addr ira dea dra b c gips gdps iwalk dwalk) (RInsn q) -> unset j q ->
  (q_branch q = true -> q_cond q = is_conditional_branch (q_insn q)) ->
  small10 (EInsn10 insn addr ira dea dra b c gips gdps iwalk dwalk) ->
  agrees true (mk_given insn addr ira dea dra (Some b) gips gdps iwalk dwalk) q.
Proof.
  intros j insn addr ira dea dra b c gips gdps iwalk dwalk q ((Y1 & Y2 & Y3 & Y4 & Y5 & Y6 & Y7) & Q1)
    (T1 & T2 & T3 & T4 & T5 & T6 & T7 & T8 & T9 & T10 & T11 & T12 & T13) (UI & UD & UR) BC
    (B1 & B2 & B3 & B4 & B5 & B6 & B7 & B8 & B9).
  assert (S3 : forall x, ira = Some x -> fst x < 2 ^ 64 /\ snd x <= 30) by (intros x ->; exact B3).
  assert (S4 : forall x, dea = Some x -> x < 2 ^ 64) by (intros x ->; exact B4).
  assert (S5 : forall x, dra = Some x -> fst x < 2 ^ 64 /\ snd x <= 30) by (intros x ->; exact B5).
  assert (S6 : forall x, gips = Some x -> x <= 30) by (intros x ->; exact B6).
  assert (S7 : forall x, gdps = Some x -> x <= 30) by (intros x ->; exact B7).
  assert (WI : side true (q_insn_ra_valid q) iwalk (q_radix_insn q) /\ typed_radix (q_radix_insn q)).
  { destruct ira as [x|], iwalk as [w|]; try destruct B8; cbn [known] in T3.
    - destruct T3 as [-> _]. rewrite T12. cbn. split; [split; [reflexivity|assumption]|assumption].
    - rewrite T3. split; [reflexivity|]. destruct (UI T3) as [_ ->]. exact Y6. }
  assert (WD : side true (q_data_ra_valid q) dwalk (q_radix_data q) /\ typed_radix (q_radix_data q)).
  { destruct dra as [x|], dwalk as [w|]; try destruct B9; cbn [known] in T6.
    - destruct T6 as [-> _]. rewrite T13. cbn. split; [split; [reflexivity|assumption]|assumption].
    - rewrite T6. split; [reflexivity|]. destruct (UR T6) as [_ ->]. exact Y7. }
  unfold agrees. cbn [g_insn g_addr g_ira g_dea g_dra g_branch g_gips g_gdps g_iwalk g_dwalk].
  split; [exact T1|]. split; [exact T2|]. split; [exact T3|].
  split; [apply known_more; [exact T4|intros x E; apply S3; exact E]|].
  split; [exact T5|]. split; [exact T6|].
  split; [apply known_more; [exact T7|intros x E; apply S5; exact E]|].
  split; [apply known_more; [exact T10|exact S6]|]. split; [apply known_more; [exact T11|exact S7]|].
  split; [apply WI|]. split; [apply WD|].
  split; [|split; [exact T8|exact BC]].
  split; [rewrite T1; apply B1|]. split; [rewrite T2; exact B2|].
  split; [eapply (known_lt _ ira _ fst); [exact T3|auto|intros y E; apply S3; exact E|intros V; apply UI; exact V|exact Y3]|].
  split; [eapply (known_lt _ dea _ (fun x => x)); [exact T5|auto|exact S4|intros V; apply UD; exact V|exact Y4]|].
  split; [eapply (known_lt _ dra _ fst); [exact T6|auto|intros y E; apply S5; exact E|intros V; apply UR; exact V|exact Y5]|].
  split; [apply WI|apply WD].
Qed.
Lemma agree10_all : forall l out, Forall2 (told J10) l out -> Forall small10 l ->
  Forall2 (agrees true) (flat_map given_of l) (flat_map to_write out)
  /\ Forall (fun g => g_insn g < 2 ^ 32) (flat_map given_of l)
  /\ Forall J10 (flat_map to_write out).
Proof.
  intros l out F. induction F as [|e r l out [T J] F IH]; intros S; [repeat split; constructor|].
  inversion S as [|? ? S1 S2]; subst. destruct (IH S2) as (IH1 & IH2 & IH3). cbn [flat_map].
  destruct e as [s| |insn addr ira dea dra b c gips gdps iwalk dwalk]; [|destruct S1|].
  - cbn [tells] in T. subst r. cbn [given_of app]. destruct s; try (repeat split; assumption). destruct S1.
  - destruct r as [q| | | | | |]; try contradiction. cbn [given_of to_write app].
    pose proof (J q eq_refl) as JQ. destruct JQ as (j & Q & U & BC). split; [|split]; constructor; try assumption.
    + exact (agrees10 j _ _ _ _ _ _ _ _ _ _ _ q Q T U BC S1).
    + exact (proj1 S1).
    + exists j. split; [exact Q|split; assumption].
Qed.

Lemma records_small_by : forall tb items z, tables_good tb -> good_z z -> trace10_by true tb z items ->
  Forall small10 (records10 true z items).
Proof.
  intros tb. induction items as [|x items IH]; intros z HT GZ OK; [constructor|].
  cbn [trace10_by] in OK. destruct OK as [O1 O2]. cbn [records10]. apply Forall_app. split.
  - destruct x as [w r|i|w]; cbn [item10_ok] in O1.
    + constructor; [|constructor]. exact (stamp_no_insn w r (proj2 O1)).
    + apply Forall_app. split; [|eapply record_small10; eassumption].
      apply Forall_map. cbn [small10]. destruct O1 as (SW & _). clear - SW.
      unfold stamps_of. induction SW as [|p l P SW IH]; [constructor|]. cbn [flat_map]. apply Forall_app. split; [|exact IH].
      destruct P as (S1 & _). eapply Forall_impl; [|exact S1]. intros s [_ X]. exact (stamp_no_insn _ _ X).
    + constructor.
  - apply IH; [exact HT| |exact O2]. destruct x as [w r|i|w]; try exact GZ. eapply good_next; eassumption.
Qed.
Lemma records_small10 : forall items z, good_z z -> trace10_ok true z items ->
  Forall small10 (records10 true z items).
Proof. intros items z GZ (tb & HT & OK). eapply records_small_by; eassumption. Qed.

(** Words that are 0 follow prefixes. *)
Lemma prefix_is : forall v, v < 2 ^ 64 -> field 64 v 0 5 = 1 ->
  is_prefix_word (field 64 v 0 31) = true /\ field 64 v 0 31 <> 0.
Proof.
  intros v L E. unfold field in E. change (64 - 1 - 5) with 58 in E. change (5 - 0 + 1) with 6 in E.
  unfold is_prefix_word, field. change (64 - 1 - 31) with 32. change (31 - 0 + 1) with 32. lia.
Qed.
Lemma words_good_by : forall tb items z, trace10_by true tb z items -> Forall worded10 items ->
  words_good (flat_map given_of (records10 true z items)).
Proof.
  intros tb. assert (ST : forall (l : stamps) rest, flat_map given_of (map (fun p => EStamp (snd p)) l ++ rest) = flat_map given_of rest).
  { intros l rest. induction l as [|p l IH]; [reflexivity|]. cbn [map app flat_map given_of]. exact IH. }
  assert (AL : forall l, words_good l -> forall g, words_follow g l).
  { intros [|g' l] W g; [exact I|]. destruct W as [W1 W2]. split; [intros Z; contradiction|exact W2]. }
  induction items as [|x items IH]; intros z OK W; [exact I|]. cbn [trace10_by] in OK. destruct OK as [O1 O2].
  inversion W as [|? ? W1 W2]; subst. specialize (IH _ O2 W2). cbn [records10].
  destruct x as [w r|i|w]; try exact IH. rewrite <- app_assoc, ST, flat_map_app.
  set (rest := flat_map given_of (records10 true (step10 true z (JInsn i)) items)) in *.
  cbn [worded10] in W1. unfold record_of10. cbv zeta. destruct (t_prefix i) as [p|] eqn:EP.
  - cbn [flat_map given_of app words_good words_follow g_insn].
    assert (L : snd p < 2 ^ 64).
    { destruct O1 as (SW & _). rewrite Forall_forall in SW. apply (SW p). unfold insn10_words, prefix_words. rewrite EP.
      do 4 (apply in_or_app; right). apply in_or_app. left. now left. }
    destruct (prefix_is _ L W1) as [P1 P2]. split; [exact P2|]. split; [intros _; exact P1|]. apply AL. exact IH.
  - cbn [flat_map given_of app words_good words_follow g_insn]. split; [exact W1|]. apply AL. exact IH.
Qed.
Lemma words10_good : forall items z, trace10_ok true z items -> Forall worded10 items ->
  words_good (flat_map given_of (records10 true z items)).
Proof. intros items z (tb & _ & OK) W. eapply words_good_by; eassumption. Qed.

Lemma convert10 : forall qs stale junk bad items slack, (forall n, quiet10 (junk n)) ->
  (forall z, length (stale z) = 8%nat) ->
  let ws := file10 true start10 items in
  (Z.of_nat (length ws) < 2 ^ 30)%Z -> trace10_ok true start10 items -> Forall worded10 items ->
  bad = true \/ other (be_val (stale (Z.of_nat (length ws)))) -> (4 <= length slack)%nat ->
  exists file, htmdecoder qs stale junk (bytes_of ws) bad = COk file
    /\ converted (flat_map given_of (records10 true start10 items)) (map view_of (fst (read_trace false false slack file)))
    /\ snd (read_trace false false slack file) = EndFalse.
Proof.
  intros qs stale junk bad items slack Q SL ws SM OK WO OT LS.
  destruct (trace10_with qs stale junk true bad J10 items) as (s & E & F & _); try assumption.
  { intros. apply record10_J, Q. }
  { apply suffix_J. }
  destruct (agree10_all _ _ F (records_small10 items _ good_start OK)) as (A & B & C).
  destruct (convert_agree true _ _ slack A) as (bytes & W & R).
  - apply words10_good; assumption.
  - exact B.
  - intros g q Hg Hq V. destruct (flat_map to_write (h_out s)) as [|q0 l0]; [discriminate|]. cbn in Hq. injection Hq as ->.
    inversion C as [|? ? (j & [_ Q0] & (U & _) & _) _]; subst. destruct (U V) as [_ ->]. exact Q0.
  - exact LS.
  - exists bytes. unfold htmdecoder, ws. rewrite E, W. split; [reflexivity|exact R].
Qed.
