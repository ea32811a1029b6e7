(** Proofs about the trace writer. *)
Require Import Arith NArith List Bool Lia ZifyBool ZifyN ZifyNat.
Require Import Verif.Word Verif.Codec_Types Verif.Writer_Model Verif.Writer_Spec.
Import ListNotations.
Local Open Scope N_scope.

Lemma put_be_length n v : length (put_be n v) = n.
Proof. induction n; cbn; congruence. Qed.

Lemma eapp_ok a b z :
  eapp a b = inr z -> exists x y, a = inr x /\ b = inr y /\ z = x ++ y.
Proof.
  destruct a as [e|x]; [discriminate|]; destruct b as [e|y]; [discriminate|].
  cbn. intros [= <-]. eauto.
Qed.

(** Upper bound on what an emission writes. *)
Definition emax (n : nat) (e : em) : Prop := forall bs, e = inr bs -> (length bs <= n)%nat.
Lemma emax_eapp n m a b : emax n a -> emax m b -> emax (n + m) (eapp a b).
Proof.
  intros Ha Hb bs E. apply eapp_ok in E as (x & y & Ea & Eb & ->).
  rewrite app_length. specialize (Ha _ Ea). specialize (Hb _ Eb). lia.
Qed.
Lemma emax_nil : emax 0 (inr []).
Proof. intros bs [= <-]. cbn. lia. Qed.
Lemma emax_when n c e : emax n e -> emax n (when c e).
Proof. intros H bs. destruct c; cbn; [apply H|]. intros [= <-]. cbn. lia. Qed.
Lemma emax_eok l n : (length l <= n)%nat -> emax n (eok l).
Proof. intros H bs [= <-]. exact H. Qed.
Lemma emax_rpn ra v ps : emax 4 (put_rpn ra v ps).
Proof.
  unfold put_rpn. intros bs. destruct (_ <? 64); [|discriminate].
  intros [= <-]. unfold put32. rewrite put_be_length. lia.
Qed.

Lemma put64s_length l : length (flat_map put64 l) = (8 * length l)%nat.
Proof. induction l; cbn [flat_map length]; [easy|]. rewrite app_length. unfold put64 at 1. rewrite put_be_length. lia. Qed.
Lemma emit_ptes_length rows cols r : (length (emit_ptes rows cols r) <= 8 * cols * rows)%nat.
Proof.
  unfold emit_ptes. generalize (rx_host_ptes r). induction rows as [|n IH]; intros l; cbn [firstn flat_map length].
  - lia.
  - destruct l as [|row l]; cbn [flat_map length]; [lia|].
    rewrite app_length, put64s_length. specialize (IH l).
    pose proof (firstn_le_length cols row). lia.
Qed.
Lemma emit_walk_length r : walk_assert r = true -> (length (emit_walk r) <= 234)%nat.
Proof.
  unfold walk_assert, emit_walk. destruct (kind r) eqn:K; intros H.
  - cbn. lia.
  - pose proof (emit_ptes_length 1 NR_RADIX_PTES r) as E. change NR_RADIX_PTES with 4%nat in *. lia.
  - apply andb_true_iff in H as [H1 H2]. change (N.of_nat NR_RADIX_PTES) with 4 in H1.
    change (N.of_nat MAX_RADIX_WALKS) with 5 in H2.
    rewrite !app_length, !put64s_length. unfold put8. rewrite !put_be_length.
    pose proof (emit_ptes_length (N.to_nat (rx_walks r)) (N.to_nat (rx_nr_ptes r)) r) as E.
    pose proof (firstn_le_length (N.to_nat (rx_walks r - 1)) (rx_host_real r)).
    pose proof (firstn_le_length (N.to_nat (rx_walks r)) (rx_guest_real r)).
    assert (Hw : (N.to_nat (rx_walks r) <= 5)%nat) by lia.
    assert (Hn : (N.to_nat (rx_nr_ptes r) <= 4)%nat) by lia.
    assert (8 * N.to_nat (rx_nr_ptes r) * N.to_nat (rx_walks r) <= 8 * 4 * 5)%nat by nia.
    rewrite ?firstn_length in *. lia.
Qed.

Lemma emax_le n m e : emax n e -> (n <= m)%nat -> emax m e.
Proof. intros H L bs E. specialize (H _ E). lia. Qed.

Lemma emax_walk c r : (c = true -> walk_assert r = true) -> emax 234 (when c (eok (emit_walk r))).
Proof.
  intros H. destruct c; cbn; [|intros bs [= <-]; cbn; lia].
  apply emax_eok, emit_walk_length, H, eq_refl.
Qed.

Ltac emax_tac :=
  repeat match goal with
  | |- emax _ (econcat []) => apply emax_nil
  | |- emax _ (econcat (_ :: _)) => cbn [econcat]; eapply emax_eapp
  | |- emax _ (eapp _ _) => eapply emax_eapp
  | |- emax _ (inr []) => apply emax_nil
  | |- emax _ (when _ (eok (emit_walk _))) => apply emax_walk
  | |- emax _ (when _ _) => apply emax_when
  | |- emax _ (put_rpn _ _ _) => apply emax_rpn
  | |- emax _ (eok _) => apply emax_eok
  end.

Ltac len_tac := unfold put8, put16, put32, put64; rewrite ?app_length, ?put_be_length; apply Nat.le_refl.

Lemma store_record_length prev cur : emax 600 (store_record prev cur).
Proof.
  unfold store_record.
  destruct (_ && _) eqn:A; [|intros bs; discriminate].
  apply andb_true_iff in A as [A1 A2].
  eapply emax_le.
  - cbn [econcat].
    emax_tac; try len_tac.
    + unfold data_walk. destruct (q_data_ra_valid prev); [easy|discriminate].
    + unfold insn_walk. destruct (_ && iar_change _ _); [easy|discriminate].
  - apply Nat.leb_le. reflexivity.
Qed.

Lemma write_header_length magic cur : emax 600 (write_header magic cur).
Proof.
  unfold write_header.
  destruct (walk_assert _) eqn:A; [|intros bs; discriminate].
  eapply emax_le.
  - cbn [econcat].
    emax_tac; try len_tac.
    intros _. exact A.
  - apply Nat.leb_le. reflexivity.
Qed.

(** ** C07 *)
Definition winv (st : wstate) : Prop :=
  N.of_nat (length (w_out st)) <= w_size st <= N.of_nat (length (w_out st)) + 2 * BUFFER.

Lemma store_ok st e r :
  (N.of_nat (length (w_out st)) + BUFFER <= w_size st) ->
  w_size st <= N.of_nat (length (w_out st)) + 2 * BUFFER ->
  emax 600 e ->
  match store st e r with
  | WOk st' => winv st' /\ N.of_nat (length (w_out st')) + BUFFER <= w_size st' + 600
  | WFail _ => False
  | WErr x => e = inl x
  end.
Proof.
  intros H1 H2 He. unfold store. destruct e as [x|bs]; [reflexivity|].
  specialize (He bs eq_refl).
  assert (B600 : 600 <= BUFFER) by (unfold BUFFER; lia).
  destruct (N.ltb_spec (w_size st) (N.of_nat (length (w_out st)) + N.of_nat (length bs))); [lia|].
  unfold winv. cbn [w_out w_size]. rewrite app_length. lia.
Qed.

(** How an emission dies, if it does. *)
Definition eo (e : em) : option werr := match e with inl x => Some x | inr _ => None end.
Lemma eo_iff e x : e = inl x <-> eo e = Some x.
Proof. destruct e; cbn; split; congruence. Qed.
Lemma eo_eapp a b : eo (eapp a b) = match eo a with Some x => Some x | None => eo b end.
Proof. destruct a; [reflexivity|]. destruct b; reflexivity. Qed.
Lemma eo_eok l : eo (eok l) = None.
Proof. reflexivity. Qed.
Lemma eo_when_ok c l : eo (when c (eok l)) = None.
Proof. destruct c; reflexivity. Qed.
Lemma eo_when c e : eo (when c e) = if c then eo e else None.
Proof. destruct c; reflexivity. Qed.
Lemma eo_nil : eo (inr []) = None.
Proof. reflexivity. Qed.
Lemma eo_rpn ra v ps :
  eo (put_rpn ra v ps) = if pshift_of v ps <? 64 then None else Some WShift.
Proof. unfold put_rpn. destruct (_ <? 64); reflexivity. Qed.
Definition eo_store p c :
  eo (store_record p c) =
  if (if q_data_ra_valid p then walk_assert (q_radix_data p) else true)
     && (if q_insn_ra_valid c && iar_change p c then walk_assert (q_radix_insn c) else true)
  then
    match (if q_data_ra_valid p then eo (put_rpn (q_data_ra p) (q_data_ps_valid p) (q_data_ps p)) else None) with
    | Some x => Some x
    | None => if q_insn_ra_valid c && iar_change p c
              then eo (put_rpn (q_insn_ra c) (q_insn_ps_valid c) (q_insn_ps c)) else None
    end
  else Some WAssert.
Proof.
  unfold store_record. destruct (_ && _); [|reflexivity].
  cbn [econcat]. rewrite !eo_eapp, !eo_when_ok, !eo_eok, !eo_when, ?eo_nil.
  destruct (if q_data_ra_valid p then _ else _); [reflexivity|].
  destruct (if q_insn_ra_valid c && _ then _ else _); reflexivity.
Qed.
Definition eo_header m c :
  eo (write_header m c) =
  if walk_assert (q_radix_insn c) then
    if q_insn_ra_valid c
    then eo (put_rpn (q_insn_ra c) (q_insn_ps_valid c) (q_insn_ps c)) else None
  else Some WAssert.
Proof.
  unfold write_header. destruct (walk_assert _); [|reflexivity].
  cbn [econcat]. rewrite !eo_eapp, !eo_when_ok, !eo_eok, !eo_when, ?eo_nil.
  destruct (if q_insn_ra_valid c then _ else _); reflexivity.
Qed.

Lemma no_overrun_store prev cur : store_record prev cur <> inl WOverrun.
Proof.
  rewrite eo_iff, eo_store, !eo_rpn.
  destruct (_ && _); [|discriminate].
  destruct (q_data_ra_valid prev), (q_insn_ra_valid cur && iar_change prev cur);
    repeat match goal with |- context [if ?c <? 64 then _ else _] => destruct (c <? 64) end; discriminate.
Qed.
Lemma no_overrun_header m cur : write_header m cur <> inl WOverrun.
Proof.
  rewrite eo_iff, eo_header, eo_rpn.
  destruct (walk_assert _); [|discriminate]. destruct (q_insn_ra_valid cur); [|discriminate].
  destruct (_ <? 64); discriminate.
Qed.

Lemma write_record_inv st g r :
  winv st ->
  match qtwriter_write_record st g r with
  | WOk st' => winv st' /\ N.of_nat (length (w_out st')) + BUFFER <= w_size st' + 600
  | WFail st' => st' = st
  | WErr x => x <> WOverrun
  end.
Proof.
  intros [H1 H2]. unfold qtwriter_write_record.
  destruct (N.ltb_spec (w_size st) (N.of_nat (length (w_out st)) + BUFFER)) as [L|L];
    [destruct g; cbn [andb negb]; [|reflexivity]|]; cbn [andb w_header w_prev w_magic].
  - destruct (w_header st).
    + match goal with |- context [store ?s ?e ?r] => pose proof (store_ok s e r) as Hs end.
      cbn [w_out w_size] in Hs. specialize (Hs ltac:(lia) ltac:(lia) (store_record_length _ _)).
      destruct (store _ _ _); try exact Hs; [easy|]. intros ->. exact (no_overrun_store _ _ Hs).
    + match goal with |- context [store ?s ?e ?r] => pose proof (store_ok s e r) as Hs end.
      cbn [w_out w_size] in Hs. specialize (Hs ltac:(lia) ltac:(lia) (write_header_length _ _)).
      destruct (store _ _ _); try exact Hs; [easy|]. intros ->. exact (no_overrun_header _ _ Hs).
  - destruct (w_header st).
    + match goal with |- context [store ?s ?e ?r] => pose proof (store_ok s e r) as Hs end.
      specialize (Hs L H2 (store_record_length _ _)).
      destruct (store _ _ _); try exact Hs; [easy|]. intros ->. exact (no_overrun_store _ _ Hs).
    + match goal with |- context [store ?s ?e ?r] => pose proof (store_ok s e r) as Hs end.
      specialize (Hs L H2 (write_header_length _ _)).
      destruct (store _ _ _); try exact Hs; [easy|]. intros ->. exact (no_overrun_header _ _ Hs).
Qed.

Lemma open_inv magic : winv (qtwriter_open magic).
Proof. unfold winv. cbn [qtwriter_open w_out w_size length]. unfold BUFFER. lia. Qed.

Lemma write_all_inv l : forall st,
  winv st ->
  match write_all st l with
  | inr st' => winv st'
  | inl x => x <> WOverrun
  end.
Proof.
  induction l as [|[r g] l IH]; intros st H; cbn [write_all]; [exact H|].
  pose proof (write_record_inv st g r H) as W.
  destruct (qtwriter_write_record st g r) as [st'|st'|e].
  - apply IH, W.
  - apply IH. subst st'. exact H.
  - exact W.
Qed.

Lemma never_overruns magic l :
  write_all (qtwriter_open magic) l <> inl WOverrun /\
  (forall st, write_all (qtwriter_open magic) l = inr st ->
     N.of_nat (length (w_out st)) <= w_size st <= N.of_nat (length (w_out st)) + 2 * 131072 /\
     forall g, qtwriter_close st g <> inl WOverrun).
Proof.
  pose proof (write_all_inv l _ (open_inv magic)) as H. split.
  - intros E. rewrite E in H. now apply H.
  - intros st E. rewrite E in H. split; [exact H|].
    intros g. unfold qtwriter_close.
    pose proof (write_record_inv st g (close_rec st) H) as W.
    destruct (qtwriter_write_record _ _ _); try discriminate.
    intros [= ->]. now apply W.
Qed.

(** ** C08 *)
Lemma walk_assert_unstorable r : walk_assert r = false <-> unstorable r.
Proof.
  unfold walk_assert, kind, unstorable.
  change (N.of_nat NR_RADIX_PTES) with 4. change (N.of_nat MAX_RADIX_WALKS) with 5.
  destruct (N.eqb_spec (rx_nr_ptes r) 0); [split; [discriminate|tauto]|].
  destruct (N.eqb_spec (rx_walks r) 1).
  - rewrite orb_false_iff, !N.eqb_neq. split; [tauto|]. intros [_ [H|H]]; [tauto|lia].
  - destruct (N.ltb_spec 1 (rx_walks r)).
    + rewrite andb_false_iff, !N.leb_gt. split; [|intros [_ [H1|H1]]; [lia|tauto]]. tauto.
    + split; [discriminate|]. intros [_ [H1|H1]]; lia.
Qed.

Lemma iar_change_jump p c : iar_change p c = true <-> jump p c.
Proof.
  unfold iar_change, jump, add64, u64, w64. rewrite negb_true_iff, N.eqb_neq. reflexivity.
Qed.

Lemma put_rpn_bad ra v ps : put_rpn ra v ps = inl WShift <-> bad_shift v ps.
Proof.
  unfold put_rpn, bad_shift, pshift_of, u8, w8. destruct v; cbv beta iota zeta.
  - destruct (N.ltb_spec (ps mod 256) 64); split; try discriminate; intros E.
    + destruct E as [_ E]. lia.
    + now split.
    + reflexivity.
  - cbn. split; [discriminate|]. now intros [? _].
Qed.
Lemma put_rpn_cases ra v ps : put_rpn ra v ps = inl WShift \/ exists bs, put_rpn ra v ps = inr bs.
Proof. unfold put_rpn. destruct (_ <? 64); eauto. Qed.

Lemma store_record_spec p c :
  (store_record p c = inl WAssert <-> next_unstorable p c) /\
  (store_record p c = inl WShift <-> ~ next_unstorable p c /\ next_bad_shift p c) /\
  store_record p c <> inl WOverrun.
Proof.
  assert (U : (if q_data_ra_valid p then walk_assert (q_radix_data p) else true)
     && (if q_insn_ra_valid c && iar_change p c then walk_assert (q_radix_insn c) else true) = false
     <-> next_unstorable p c).
  { unfold next_unstorable. rewrite <- !walk_assert_unstorable, <- iar_change_jump, andb_false_iff.
    destruct (q_data_ra_valid p), (q_insn_ra_valid c), (iar_change p c); cbn; intuition congruence. }
  assert (B : next_bad_shift p c <->
     (q_data_ra_valid p = true /\ put_rpn (q_data_ra p) (q_data_ps_valid p) (q_data_ps p) = inl WShift) \/
     (q_insn_ra_valid c && iar_change p c = true /\
      put_rpn (q_insn_ra c) (q_insn_ps_valid c) (q_insn_ps c) = inl WShift)).
  { unfold next_bad_shift. rewrite <- iar_change_jump, !put_rpn_bad, andb_true_iff. tauto. }
  rewrite B, <- U. clear B U.
  split; [|split; [|apply no_overrun_store]].
  - rewrite eo_iff, eo_store. destruct (_ && _); [|tauto]. split; [|discriminate].
    rewrite !eo_rpn.
    destruct (q_data_ra_valid p), (q_insn_ra_valid c && iar_change p c);
    repeat match goal with |- context [if ?c <? 64 then _ else _] => destruct (c <? 64) end; discriminate.
  - rewrite !eo_iff, eo_store. destruct (_ && _); [|split; [discriminate|tauto]].
    rewrite !eo_rpn.
    destruct (q_data_ra_valid p), (q_insn_ra_valid c && iar_change p c);
    repeat match goal with |- context [if ?c <? 64 then _ else _] => destruct (c <? 64) end;
    split; intros; try discriminate; intuition discriminate.
Qed.

Lemma write_header_spec m c :
  (write_header m c = inl WAssert <-> first_unstorable c) /\
  (write_header m c = inl WShift <-> ~ first_unstorable c /\ first_bad_shift c) /\
  write_header m c <> inl WOverrun.
Proof.
  unfold first_unstorable, first_bad_shift. rewrite <- walk_assert_unstorable, <- (put_rpn_bad (q_insn_ra c)).
  split; [|split; [|apply no_overrun_header]].
  - rewrite eo_iff, eo_header, eo_rpn. destruct (walk_assert _); [|tauto]. split; [|discriminate].
    destruct (q_insn_ra_valid c); [|discriminate]. destruct (_ <? 64); discriminate.
  - rewrite !eo_iff, eo_header, eo_rpn. destruct (walk_assert _); [|split; [discriminate|tauto]].
    destruct (q_insn_ra_valid c); destruct (_ <? 64); split; intros; try discriminate; intuition discriminate.
Qed.

Lemma store_err st e r x : x <> WOverrun -> store st e r = WErr x <-> e = inl x.
Proof.
  intros H. unfold store. destruct e as [y|bs].
  - split; [intros [= ->]|intros [= ->]]; reflexivity.
  - destruct (_ <? _); split; try discriminate. intros [= <-]. congruence.
Qed.

(** A call does not fail when the extension would succeed. *)
Definition can_extend (st : wstate) (g : bool) : Prop :=
  g = true \/ N.of_nat (length (w_out st)) + BUFFER <= w_size st.

Lemma write_first_err st g r x :
  w_header st = false -> can_extend st g -> x <> WOverrun ->
  qtwriter_write_record st g r = WErr x <-> write_header (w_magic st) r = inl x.
Proof.
  intros H G X. unfold qtwriter_write_record.
  destruct (N.ltb_spec (w_size st) (N.of_nat (length (w_out st)) + BUFFER));
    destruct g; cbn [andb negb w_header w_magic]; rewrite ?H;
    first [apply store_err, X | destruct G; [discriminate|lia]].
Qed.
Lemma write_next_err st g r x :
  w_header st = true -> can_extend st g -> x <> WOverrun ->
  qtwriter_write_record st g r = WErr x <-> store_record (w_prev st) r = inl x.
Proof.
  intros H G X. unfold qtwriter_write_record.
  destruct (N.ltb_spec (w_size st) (N.of_nat (length (w_out st)) + BUFFER));
    destruct g; cbn [andb negb w_header w_magic w_prev]; rewrite ?H;
    first [apply store_err, X | destruct G; [discriminate|lia]].
Qed.

Lemma abort_first st g r :
  w_header st = false -> can_extend st g ->
  (qtwriter_write_record st g r = WErr WAssert <-> first_unstorable r) /\
  (qtwriter_write_record st g r = WErr WShift <-> ~ first_unstorable r /\ first_bad_shift r).
Proof.
  intros H G. rewrite !write_first_err by (assumption || discriminate).
  destruct (write_header_spec (w_magic st) r) as (A & B & _). auto.
Qed.
Lemma abort_next st g r :
  w_header st = true -> can_extend st g ->
  (qtwriter_write_record st g r = WErr WAssert <-> next_unstorable (w_prev st) r) /\
  (qtwriter_write_record st g r = WErr WShift
   <-> ~ next_unstorable (w_prev st) r /\ next_bad_shift (w_prev st) r).
Proof.
  intros H G. rewrite !write_next_err by (assumption || discriminate).
  destruct (store_record_spec (w_prev st) r) as (A & B & _). auto.
Qed.

(** The pending record is the last accepted one. *)
Lemma write_ok_prev st g r st' :
  qtwriter_write_record st g r = WOk st' ->
  w_prev st' = r /\ w_header st' = true /\ w_magic st' = w_magic st.
Proof.
  unfold qtwriter_write_record, store. intros H.
  destruct (_ && _); [discriminate|].
  destruct (w_size st <? N.of_nat (length (w_out st)) + BUFFER); cbn [w_header w_prev w_magic w_size w_out] in H;
    destruct (w_header st);
    match type of H with context [match ?e with inl _ => _ | inr _ => _ end] => destruct e as [|bs]; [discriminate|] end;
    destruct (_ <? _); try discriminate; injection H as <-; auto.
Qed.
Lemma write_fail_same st g r st' :
  qtwriter_write_record st g r = WFail st' -> st' = st.
Proof.
  unfold qtwriter_write_record, store. intros H.
  destruct (_ && _); [congruence|].
  destruct (w_size st <? _); cbn [w_header w_prev w_magic w_size w_out] in H; destruct (w_header st);
    match type of H with context [match ?e with inl _ => _ | inr _ => _ end] => destruct e as [|bs]; [discriminate|] end;
    destruct (_ <? _); discriminate.
Qed.

(** ** Emitted bytes do not depend on how the mapping grew *)
Fixpoint emitted (prev : option qrec) (magic : N) (rs : list qrec) : em :=
  match rs with
  | [] => inr []
  | r :: rs' =>
      eapp (match prev with None => write_header magic r | Some p => store_record p r end)
           (emitted (Some r) magic rs')
  end.

Definition pend (st : wstate) : option qrec := if w_header st then Some (w_prev st) else None.

Lemma write_record_bytes st g r :
  winv st ->
  match qtwriter_write_record st g r with
  | WOk st' =>
      exists bs, (match pend st with None => write_header (w_magic st) r | Some p => store_record p r end) = inr bs
                 /\ w_out st' = w_out st ++ bs /\ pend st' = Some r /\ w_magic st' = w_magic st /\ winv st'
                 /\ N.of_nat (length (w_out st')) + BUFFER <= w_size st' + 600
  | WFail st' => st' = st /\ ~ can_extend st g
  | WErr e =>
      (match pend st with None => write_header (w_magic st) r | Some p => store_record p r end) = inl e
      /\ can_extend st g
  end.
Proof.
  intros Hw. pose proof (write_record_inv st g r Hw) as W.
  unfold qtwriter_write_record, can_extend, pend in *.
  destruct (N.ltb_spec (w_size st) (N.of_nat (length (w_out st)) + BUFFER)) as [L|L];
    [destruct g|]; cbn [andb negb w_header w_magic w_prev] in *.
  2: { split; [reflexivity|]. intros [?|?]; [discriminate|lia]. }
  all: destruct (w_header st); unfold store in *; cbn [w_out w_size w_magic w_header w_prev] in *.
  all: match goal with |- context [match ?e with inl _ => WErr _ | inr _ => _ end] =>
         destruct e as [e'|bs] end.
  all: try (split; [reflexivity|]; first [now left | now right]).
  all: match goal with |- context [if ?c then WErr WOverrun else _] => destruct c end.
  all: try (exfalso; now apply W).
  all: exists bs; cbn [w_out w_size w_magic w_header w_prev] in *; repeat split; try reflexivity; apply W.
Qed.

Lemma eapp_assoc a b c : eapp (eapp a b) c = eapp a (eapp b c).
Proof. destruct a, b, c; cbn; try reflexivity. now rewrite app_assoc. Qed.

Definition accepted_bytes st l := emitted (pend st) (w_magic st) (accepted st l).

Lemma write_all_bytes l : forall st,
  winv st ->
  match write_all st l with
  | inr st' =>
      eapp (inr (w_out st)) (emitted (pend st) (w_magic st) (accepted st l)) = inr (w_out st')
      /\ pend st' = (match rev (accepted st l) with [] => pend st | r :: _ => Some r end)
      /\ w_magic st' = w_magic st
  | inl e => True
  end.
Proof.
  induction l as [|[r g] l IH]; intros st H; cbn [write_all].
  - cbn. rewrite app_nil_r. auto.
  - pose proof (write_record_bytes st g r H) as W.
    unfold accepted. cbn [outcomes].
    destruct (qtwriter_write_record st g r) as [st'|st'|e].
    + destruct W as (bs & E & Ho & Hp & Hm & Hi & _).
      specialize (IH st' Hi). cbn [combine filter snd map fst].
      fold (accepted st' l).
      destruct (write_all st' l) as [e|st''].
      * exact Logic.I.
      * destruct IH as (I1 & I2 & I3). cbn [emitted]. rewrite E.
        rewrite Hp, Hm in I1. rewrite <- eapp_assoc. cbn [eapp]. rewrite <- Ho.
        split; [exact I1|]. split; [|congruence].
        rewrite I2. cbn [rev]. rewrite Hp.
        destruct (rev (accepted st' l)); reflexivity.
    + destruct W as [-> _]. cbn [combine filter snd map fst].
      fold (accepted st l). specialize (IH st H).
      destruct (write_all st l) as [e|st''].
      * exact Logic.I.
      * exact IH.
    + exact Logic.I.
Qed.
