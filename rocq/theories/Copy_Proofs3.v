(** Copying a trace: the copy has the same bytes. *)
Require Import Arith NArith List Bool Lia ZifyBool ZifyN ZifyNat.
Require Import Verif.Word Verif.Codec_Types Verif.Writer_Model Verif.Writer_Spec Verif.Writer_Proofs
  Verif.Branch_Model Verif.Reader_Model Verif.Reader_Spec Verif.Reader_Proofs Verif.Reader_Proofs3
  Verif.Codec_Spec Verif.Codec_Proofs Verif.Codec_Proofs2 Verif.Codec_Proofs3 Verif.Codec_Proofs4
  Verif.Codec_Proofs5 Verif.Copy_Model Verif.Copy_Proofs Verif.Copy_Proofs2.
Import ListNotations.
Local Open Scope N_scope.

Definition qsound (q : qrec) : Prop := sound (q_radix_insn q) /\ sound (q_radix_data q).

Lemma emitted_same m rs : forall rs' p p',
  Forall2 looks rs rs' -> Forall qsound rs' -> looks p p' -> typed p -> qsound p' ->
  chain_frames p rs -> emitted (Some p') m rs' = emitted (Some p) m rs.
Proof.
  induction rs as [|c rs IH]; intros rs' p p' F S L T Sp C; inversion F as [|c0 c' rs0 rs2 Lc F']; subst; [reflexivity|].
  inversion_clear S. destruct C as (Tc & _ & _ & Pf & C). cbn [emitted].
  rewrite (store_same p p' c c'); try assumption; [|apply Sp|apply H].
  now rewrite (IH rs2 c c').
Qed.

Lemma view_looks r q n t : view_of r = own_view q n t -> looks q (o_q r).
Proof.
  intros E. unfold looks. symmetry.
  exact (f_equal (fun v => mk_view (v_insn v) (v_addr v) (v_ra v) (v_ps v) (v_gps v) (v_walk v)
           (v_daddr v) (v_dra v) (v_dps v) (v_gdps v) (v_dwalk v) (v_branch v) (v_cond v) false 0) E).
Qed.
Lemma views_look rs : forall p l, map view_of l = own_views p rs -> Forall2 looks (p :: rs) (map o_q l).
Proof.
  induction rs as [|c rs IH]; intros p [|r l] E; try discriminate E; cbn [map own_views] in E |- *.
  - destruct l; [|discriminate E]. constructor; [|constructor].
    apply (view_looks r _ _ _ (f_equal (hd (view_of r)) E)).
  - constructor; [apply (view_looks r _ _ _ (f_equal (hd (view_of r)) E))|].
    apply IH. exact (f_equal (@tl view) E).
Qed.
Lemma written_look rs l : map view_of l = as_written rs -> Forall2 looks rs (map o_q l).
Proof. destruct rs as [|r rs]; [destruct l; [constructor|discriminate]|]. apply views_look. Qed.

(** ** The first record, when no walk is stored in the header *)
Lemma get_inv n b v b' : get n b = ROk (v, b') -> v = be_val (firstn n b) /\ b' = skipn n b.
Proof. unfold get. destruct (Nat.ltb _ n); [discriminate|]. intros E. injection E as <- <-. auto. Qed.
Lemma header_no_walk b s b' :
  parse_header init_state b = ROk (s, b') ->
  has (be_val (firstn 2 (skipn 2 (skipn 4 b)))) F2_EXT2 = false ->
  x_radix (r_cur s) = zero_radix /\ x_radix (r_nxt s) = zero_radix.
Proof.
  intros E H. unfold parse_header in E.
  apply bind_inv in E as (v1 & b1 & E1 & E). apply get_inv in E1 as [_ ->].
  apply bind_inv in E as (? & b2 & E1 & E).
  assert (b2 = skipn 4 b) as ->.
  { unfold guard in E1. destruct (v1 =? 0); [now injection E1|discriminate E1]. }
  apply bind_inv in E as (v3 & b3 & E3 & E). apply get_inv in E3 as [_ ->].
  apply bind_inv in E as (? & b4 & E4 & E).
  assert (b4 = skipn 2 (skipn 4 b)) as ->.
  { unfold guard in E4. destruct (v3 =? F_EXT); [now injection E4|discriminate E4]. }
  apply bind_inv in E as (f2 & b5 & E5 & E). apply get_inv in E5 as [-> _]. rewrite H in E.
  do 9 (skip_bind E). walk_bind E rx Hr. do 8 (skip_bind E). injection E as <- _.
  cbn [r_cur r_nxt x_radix]. split; [reflexivity|].
  rewrite andb_false_r in Hr. cbn [opt] in Hr. now injection Hr as <- _.
Qed.

Lemma header_info s b s' b' : parse_header s b = ROk (s', b') ->
  r_branch_info s' = r_branch_info s /\ r_tlbie_info s' = r_tlbie_info s.
Proof.
  intros E. unfold parse_header in E. do 23 (skip_bind E). injection E as <- _. split; reflexivity.
Qed.
Lemma initial_info b s b' : qtreader_initialize b = ROk (s, b') -> set_info false false s = s.
Proof.
  intros E. apply header_info in E as [A B]. destruct s. cbn in *. unfold set_info. cbn. congruence.
Qed.

Lemma core_no_walk s b r s' b' : parse_core s b = ROk ((r, s'), b') ->
  x_radix (r_cur s) = zero_radix -> x_radix (r_nxt s) = zero_radix -> q_radix_insn (o_q r) = zero_radix.
Proof.
  intros E C N. unfold parse_core in E. do 12 (skip_bind E). walk_bind E dr Hd. do 3 (skip_bind E).
  walk_bind E ir Hi. do 10 (skip_bind E). apply ret_inv in E as [-> _].
  cbn [o_q q_radix_insn]. unfold promote. cbn [x_radix]. rewrite C, N. reflexivity.
Qed.

(** The first record, without any header before it. *)
Lemma next_no_walk slack s b r s' b' : qtreader_next_record slack s b = ROk ((r, s'), b') ->
  skip_headers (S (length b)) slack s b = ROk (s, b) ->
  x_radix (r_cur s) = zero_radix -> x_radix (r_nxt s) = zero_radix -> q_radix_insn (o_q r) = zero_radix.
Proof.
  intros E K C N. unfold qtreader_next_record in E. rewrite K in E. unfold parse_record in E.
  apply bind_inv in E as ([r1 s2] & b2 & E2 & E). cbn [fst snd] in E.
  apply bind_inv in E as (r2 & b3 & E3 & E). injection E as <- _ _.
  unfold lift in E3. destruct (annotate s r1) eqn:E4; try discriminate E3. injection E3 as <- _.
  rewrite (annotate_q _ _ _ E4). eapply core_no_walk; eauto.
Qed.

Lemma first_no_walk m r slack tail rest l e :
  m < 2 ^ 32 -> typed r -> shifts_ok r -> header_frames r -> q_insn r <> 0 ->
  rx_nr_ptes (q_radix_insn r) = 0 ->
  tail = put32 (q_insn r) ++ rest ->
  read_trace false false slack (hdr_bytes m r ++ tail) = (l, e) ->
  match l with [] => True | q :: _ => q_radix_insn (o_q q) = zero_radix end.
Proof.
  intros Hm T S H Z N Et E.
  destruct (header_back m r tail Hm T S H) as (s0 & E0 & R0 & P0 & _).
  unfold read_trace, qtreader_initialize in E. rewrite E0 in E. cbn [read_loop] in E.
  destruct (qtreader_next_record slack (set_info false false s0) tail) as [[[q s1] b1]| |] eqn:En;
    [|injection E as <- _; exact I|injection E as <- _; exact I].
  destruct (read_loop (length tail) slack s1 b1) as [l' e']. injection E as <- _.
  apply header_no_walk in E0 as [C X].
  - eapply next_no_walk; try exact En; try assumption.
    apply skip_headers_none.
    + rewrite Et, app_length. unfold put32. rewrite put_be_length. lia.
    + left. rewrite Et. unfold u32_at. cbn [skipn]. unfold put32. rewrite firstn_put, be_val_put.
      change (256 ^ N.of_nat 4) with (2 ^ 32). rewrite N.mod_small by apply T. assumption.
  - unfold hdr_bytes. rewrite N. cbn. reflexivity.
Qed.

(** ** The loop *)
Lemma close_em st r bs :
  winv st -> pend st = Some r -> store_record r (successor r) = inr bs ->
  qtwriter_close st true = inr (w_out st ++ bs).
Proof.
  intros H P E. unfold qtwriter_close.
  pose proof (write_record_bytes st true (close_rec st) H) as W.
  assert (Ew : w_prev st = r /\ w_header st = true).
  { unfold pend in P. destruct (w_header st); [|discriminate]. injection P. auto. }
  destruct Ew as [Ew _]. rewrite successor_close, Ew in *. rewrite P, E in W.
  destruct (qtwriter_write_record st true (successor r)) as [st'|st'|e].
  - destruct W as (bs' & Eb & Eo & _). injection Eb as <-. now rewrite Eo.
  - destruct W as [_ W]. exfalso. apply W. now left.
  - destruct W as [W _]. discriminate.
Qed.

Lemma copy_run slack fuel : forall s b l st st',
  read_loop fuel slack s b = (l, EndFalse) ->
  write_all st (map (fun r => (r, true)) (map o_q l)) = inr st' -> winv st ->
  copy_loop fuel slack s b st
  = match qtwriter_close st' true with inr out => CDone out | inl e => CAbort e end.
Proof.
  induction fuel as [|f IH]; intros s b l st st' E W H; cbn [read_loop copy_loop] in *; [discriminate E|].
  destruct (qtreader_next_record slack s b) as [[[r s1] b1]| |]; [|injection E as <-|discriminate E].
  - destruct (read_loop f slack s1 b1) as [l1 e1] eqn:E1. injection E as <- ->.
    cbn [map write_all] in W. pose proof (write_record_bytes st true (o_q r) H) as B.
    destruct (qtwriter_write_record st true (o_q r)) as [st1|st1|e]; [|exfalso|discriminate W].
    + destruct B as (bs & _ & _ & _ & _ & H1 & _). eapply IH; eauto.
    + destruct B as [_ B]. apply B. now left.
  - cbn [map write_all] in W. now injection W as <-.
Qed.

Lemma copy_write slack b l out s b' :
  qtreader_initialize b = ROk (s, b') ->
  read_trace false false slack b = (l, EndFalse) -> write_trace 0 (map o_q l) = inr out ->
  copy slack b = CDone out.
Proof.
  intros E0 E W. unfold read_trace in E. unfold copy. rewrite E0 in *. rewrite (initial_info _ _ _ E0) in E.
  unfold write_trace in W.
  destruct (write_all (qtwriter_open 0) (map (fun r => (r, true)) (map o_q l))) as [e|st'] eqn:Ew; [discriminate W|].
  rewrite (copy_run slack _ _ _ l _ st' E Ew (open_inv 0)), W. reflexivity.
Qed.

Lemma last_look (rs rs' : list qrec) : Forall2 looks rs rs' -> forall r r', looks r r' -> looks (last rs r) (last rs' r').
Proof.
  induction 1 as [|c c' l l' Lc F IH]; intros r r' L; [assumption|].
  destruct F; [assumption|]. exact (IH r r' L).
Qed.
Lemma last_all {A} (P : A -> Prop) l : Forall P l -> forall d, P d -> P (last l d).
Proof. induction 1; intros d Hd; [assumption|]. destruct l; [assumption|]. now apply IHForall. Qed.
Lemma last_chain rs : forall p, typed p -> shifts_ok p -> chain_frames p rs -> typed (last rs p) /\ shifts_ok (last rs p).
Proof.
  induction rs as [|c rs IH]; intros p T S F; [auto|]. destruct F as (Tc & Sc & _ & _ & F).
  destruct rs; [auto|]. rewrite (last_default (c :: q :: rs) ltac:(discriminate) p c).
  change (last (c :: q :: rs) c) with (last (q :: rs) c). now apply IH.
Qed.

Lemma write_out m r rs :
  frames (r :: rs) -> closes (r :: rs) ->
  write_trace m (r :: rs)
  = inr (hdr_bytes m r ++ chain_bytes r rs ++ stored (last rs r) (successor (last rs r))).
Proof.
  intros F C. unfold write_trace.
  destruct (write_all_true (r :: rs) (qtwriter_open m) (hdr_bytes m r ++ chain_bytes r rs) (open_inv m))
    as (st & E & Eo & Hw & Em & Ep).
  { apply (emitted_frames m), F. }
  rewrite E. cbn [w_out qtwriter_open app] in Eo.
  unfold closes in C. rewrite last_cons_rs in C. cbv zeta in C.
  destruct F as (T & S & _ & _ & F). destruct (last_chain rs r T S F) as [Tl Sl].
  rewrite (close_bytes st (last rs r) Hw Ep Sl C), Eo, <- app_assoc. reflexivity.
Qed.

Lemma chain_first r rs : exists rest, chain_bytes r rs ++ stored (last rs r) (successor (last rs r)) = put32 (q_insn r) ++ rest.
Proof.
  destruct rs as [|c rs]; cbn [chain_bytes app last]; unfold stored; rewrite <- ?app_assoc; eauto.
Qed.

Lemma copy_same m rs slack :
  m < 2 ^ 32 -> frames rs -> closes rs -> recoverable rs -> (4 <= length slack)%nat ->
  exists b b0, write_trace m rs = inr b /\ write_trace 0 rs = inr b0 /\ copy slack b = CDone b0.
Proof.
  intros Hm F C X L.
  destruct (exact_round_trip m rs slack Hm F C X L) as (b & E & V & En).
  destruct (round_trip m rs slack Hm F C L) as (b1 & E1 & _ & _ & s & bi & Ei & _).
  rewrite E in E1. injection E1 as <-.
  destruct (round_trip 0 rs slack ltac:(reflexivity) F C L) as (b0 & E0 & _).
  exists b, b0. split; [assumption|]. split; [assumption|].
  destruct (read_trace false false slack b) as [l e] eqn:Er. cbn [fst snd] in *. subst e.
  apply (copy_write slack b l b0 s bi Ei Er).
  pose proof (trace_sound false false slack b) as Sd. rewrite Er in Sd. cbn [fst] in Sd.
  apply written_look in V.
  destruct rs as [|r rs]; [inversion V; exact E0|].
  rewrite <- E0.
  assert (Sq : Forall qsound (map o_q l)) by (rewrite Forall_forall in *; intros q Hq; apply in_map_iff in Hq as (x & <- & Hx); now apply Sd).
  assert (FN : rx_nr_ptes (q_radix_insn r) = 0 -> match map o_q l with [] => True | q :: _ => q_radix_insn q = zero_radix end).
  { intros Nz. destruct F as (T & S & Z & H & F0). destruct (chain_first r rs) as [rest Ec].
    rewrite (write_out m r rs (conj T (conj S (conj Z (conj H F0)))) C) in E. injection E as <-.
    pose proof (first_no_walk m r slack _ rest l EndFalse Hm T S H Z Nz Ec Er) as G.
    destruct l; [exact I|exact G]. }
  clear Er Sd. destruct (map o_q l) as [|q qs]; [inversion V|].
  inversion V as [|r0 q0 rs0 qs0 Lr Fl]; subst. inversion_clear Sq as [|? ? Sr Sqs].
  rewrite (write_out 0 r rs F C). pose proof F as Fr.
  destruct F as (T & S & Z & (H1 & H2) & F).
  assert (Eh : write_header 0 q = write_header 0 r).
  { apply header_same; try assumption; [apply Sr|]. split.
    - intros Zq. destruct (N.eq_dec (rx_nr_ptes (q_radix_insn r)) 0) as [Y|Y]; [exact Y|exfalso].
      apply looks_fields in Lr as (_ & _ & _ & _ & _ & Lw & _). destruct (H1 Y) as [_ Wk].
      apply (walk_of_walked (rx_type (q_radix_insn r)) _ Wk). rewrite Lw. now apply walk_of_nr0.
    - intros Zr. rewrite (FN Zr). reflexivity. }
  assert (Ee : emitted None 0 (q :: qs) = inr (hdr_bytes 0 r ++ chain_bytes r rs)).
  { rewrite <- (emitted_frames 0 r rs Fr). cbn [emitted]. rewrite Eh.
    now rewrite (emitted_same 0 rs qs r q). }
  unfold write_trace.
  destruct (write_all_true (q :: qs) (qtwriter_open 0) _ (open_inv 0) Ee) as (st & E9 & Eo & Hw & Em & Ep).
  rewrite E9. cbn [w_out qtwriter_open app] in Eo.
  destruct (last_chain rs r T S F) as [Tl Sl].
  unfold closes in C. rewrite last_cons_rs in C. cbv zeta in C.
  pose proof (last_look _ _ Fl _ _ Lr) as Ll.
  assert (Es : successor (last qs q) = successor (last rs r)).
  { apply looks_fields in Ll as (_ & A & _). unfold successor. now rewrite A. }
  rewrite (close_em st (last qs q) (stored (last rs r) (successor (last rs r))) Hw Ep), Eo, <- app_assoc;
    [reflexivity|].
  destruct (successor_typed (last rs r)) as [Ts Ss].
  pose proof (successor_pair _ C) as Pp.
  destruct (pair_walk_cond _ _ Pp) as (_ & _ & _ & A & B).
  rewrite <- (store_record_stored (last rs r) (successor (last rs r)) Sl Ss A B), Es.
  apply store_same; try assumption; [reflexivity| |].
  - assert (G : qsound (last qs q)) by (now apply last_all). apply G.
  - cbn [successor q_radix_insn]. apply zero_sound.
Qed.

(** Any file: the records read are the records of the copy. *)
Lemma copy_any slack slack' b l s b' :
  qtreader_initialize b = ROk (s, b') -> read_trace false false slack b = (l, EndFalse) ->
  frames (map o_q l) -> closes (map o_q l) -> recoverable (map o_q l) -> (4 <= length slack')%nat ->
  exists out l', copy slack b = CDone out /\ read_trace false false slack' out = (l', EndFalse) /\
    Forall2 (fun r r' => own_view (o_q r) 0 false = own_view (o_q r') 0 false) l l'.
Proof.
  intros E0 E F C X L.
  destruct (exact_round_trip 0 _ slack' ltac:(reflexivity) F C X L) as (out & Ew & V & En).
  destruct (read_trace false false slack' out) as [l' e'] eqn:Er. cbn [fst snd] in *. subst e'.
  exists out, l'. split; [eapply copy_write; eauto|]. split; [assumption|].
  apply written_look in V. clear - V. revert l' V.
  induction l as [|r l IH]; intros l' V; cbn [map] in V.
  - destruct l'; [constructor|inversion V].
  - destruct l' as [|r' l']; [inversion V|]. cbn [map] in V. inversion V; subst. constructor; auto.
Qed.
