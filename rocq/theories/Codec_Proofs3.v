(** Whole traces: what is read back. *)
Require Import Arith NArith List Bool Lia ZifyBool ZifyN ZifyNat.
Require Import Verif.Word Verif.Codec_Types Verif.Writer_Model Verif.Writer_Spec Verif.Writer_Proofs
  Verif.Branch_Model Verif.Reader_Model Verif.Reader_Spec Verif.Reader_Proofs Verif.Reader_Proofs3
  Verif.Codec_Spec Verif.Codec_Proofs Verif.Codec_Proofs2.
Import ListNotations.
Local Open Scope N_scope.

Lemma annotate_none s r : r_branch_info s = false -> r_tlbie_info s = false -> annotate s r = ROk r.
Proof. intros A B. unfold annotate. rewrite A, B, andb_false_r. now destruct r. Qed.

Lemma next_stored s t p c slack tail :
  rel s t p -> typed p -> typed c -> shifts_ok p -> shifts_ok c -> pair_frames p c ->
  (q_insn p = 0 -> r_prefixed s = true) ->
  exists r, qtreader_next_record slack s (stored p c ++ tail) = ROk ((r, out_state s p c), tail) /\
            view_of r = expected_one t p c /\
            rel (out_state s p c) (next_trans t p c) c /\
            r_prefixed (out_state s p c) = is_prefix_word (q_insn p).
Proof.
  intros R Tp Tc Sp Sc F Z.
  destruct (read_back s t p c tail R Tp Tc Sp Sc F) as (r & E & V & R' & Pf).
  exists r. split; [|auto]. unfold qtreader_next_record.
  rewrite skip_headers_none.
  - unfold parse_record. erewrite bind_ok by exact E. cbn [fst snd].
    rewrite annotate_none by apply R. reflexivity.
  - unfold stored. rewrite !app_length. unfold put32. rewrite put_be_length. lia.
  - unfold u32_at, stored. cbn [skipn]. unfold put32. rewrite <- app_assoc, firstn_put, be_val_put.
    change (256 ^ N.of_nat 4) with (2 ^ 32). rewrite N.mod_small by apply Tp.
    destruct (N.eq_dec (q_insn p) 0); auto.
Qed.

(** The bytes of the records after the first. *)
Fixpoint chain_bytes (p : qrec) (rs : list qrec) : list N :=
  match rs with [] => [] | c :: rs' => stored p c ++ chain_bytes c rs' end.

Lemma emitted_chain magic rs : forall p,
  shifts_ok p -> chain_frames p rs -> emitted (Some p) magic rs = inr (chain_bytes p rs).
Proof.
  induction rs as [|c rs IH]; intros p Sp F; [reflexivity|].
  destruct F as (Tc & Sc & _ & Fp & F). cbn [emitted chain_bytes].
  destruct (pair_walk_cond _ _ Fp) as (_ & _ & _ & A & B).
  rewrite (store_record_stored p c Sp Sc A B), (IH c Sc F). reflexivity.
Qed.

Fixpoint flushed (t : trans) (p : qrec) (rs : list qrec) : list view :=
  match rs with [] => [] | c :: rs' => expected_one t p c :: flushed (next_trans t p c) c rs' end.
Fixpoint final (t : trans) (p : qrec) (rs : list qrec) : trans :=
  match rs with [] => t | c :: rs' => final (next_trans t p c) c rs' end.

Lemma expected_from_flushed rs : forall t p,
  expected_from t p rs
  = flushed t p rs ++ [expected_one (final t p rs) (last rs p) (successor (last rs p))].
Proof.
  induction rs as [|c rs IH]; intros t p; [reflexivity|].
  cbn [expected_from flushed final app]. rewrite IH. f_equal. f_equal. f_equal.
  f_equal; [|f_equal]; destruct rs; try reflexivity; cbn [last]; clear; revert q;
  induction rs as [|x rs IH]; intros q; try reflexivity; cbn [last] in *; apply IH.
Qed.

Definition prefixed_after (d : bool) (p : qrec) (rs : list qrec) : bool :=
  match rs with [] => d | _ => is_prefix_word (q_insn (last (removelast (p :: rs)) p)) end.

Lemma last_default {A} (l : list A) : l <> [] -> forall a b, last l a = last l b.
Proof.
  induction l as [|x l IH]; intros N a b; [congruence|].
  destruct l; [reflexivity|]. change (last (x :: a0 :: l) a) with (last (a0 :: l) a).
  change (last (x :: a0 :: l) b) with (last (a0 :: l) b). apply IH. discriminate.
Qed.

Lemma loop_chain slack tail rs : forall p t s,
  rel s t p -> typed p -> shifts_ok p -> chain_frames p rs ->
  (q_insn p = 0 -> r_prefixed s = true) ->
  exists l s',
    read_loop (S (length (chain_bytes p rs ++ tail))) slack s (chain_bytes p rs ++ tail)
    = (l ++ fst (read_loop (S (length tail)) slack s' tail),
       snd (read_loop (S (length tail)) slack s' tail)) /\
    map view_of l = flushed t p rs /\
    rel s' (final t p rs) (last rs p) /\ typed (last rs p) /\ shifts_ok (last rs p) /\
    (q_insn (last rs p) = 0 -> r_prefixed s' = true) /\
    r_prefixed s' = prefixed_after (r_prefixed s) p rs.
Proof.
  induction rs as [|c rs IH]; intros p t s R Tp Sp F Z.
  - exists [], s. cbn [chain_bytes app flushed final last map prefixed_after].
    split; [now destruct (read_loop _ _ _ _)|]. repeat (split; [solve [auto]|]). reflexivity.
  - destruct F as (Tc & Sc & Zc & Fp & F).
    cbn [chain_bytes]. rewrite <- app_assoc.
    destruct (next_stored s t p c slack (chain_bytes c rs ++ tail) R Tp Tc Sp Sc Fp Z) as (r & E & V & R' & Pf).
    destruct (IH c (next_trans t p c) (out_state s p c) R' Tc Sc F) as (l & s' & El & Vl & Rl & Tl & Sl & Zl & Pl).
    { intros Ez. rewrite Pf. now apply Zc. }
    exists (r :: l), s'.
    assert (Hlast : last (c :: rs) p = last rs c).
    { destruct rs; [reflexivity|]. change (last (c :: q :: rs) p) with (last (q :: rs) p).
      apply last_default. discriminate. }
    rewrite Hlast.
    split; [|split; [|split; [|split; [|split; [|split]]]]]; auto.
    + cbn [read_loop]. rewrite E.
      rewrite (read_loop_fuel _ (S (length (chain_bytes c rs ++ tail)))).
      * rewrite El. reflexivity.
      * rewrite !app_length. pose proof (next_record_progress _ _ _ _ _ _ E) as (pre & Ep & Lp).
        apply app_inv_tail in Ep. rewrite Ep. lia.
      * lia.
    + cbn [map flushed]. now rewrite V, Vl.
    + rewrite Pl, Pf. unfold prefixed_after. destruct rs as [|q rs]; [reflexivity|].
      f_equal. f_equal. change (removelast (p :: c :: q :: rs)) with (p :: removelast (c :: q :: rs)).
      change (removelast (c :: q :: rs)) with (c :: removelast (q :: rs)).
      destruct (removelast (q :: rs)); [reflexivity|].
      change (last (p :: c :: q0 :: l0) p) with (last (q0 :: l0) p).
      change (last (c :: q0 :: l0) c) with (last (q0 :: l0) c). apply last_default. discriminate.
Qed.

(** ** The end of the data *)
Lemma parse_core_short s b :
  (x_ps_v (promote (r_cur s) (r_nxt s)) = true -> x_ps (promote (r_cur s) (r_nxt s)) < 64) ->
  (length b < 4)%nat -> parse_core s b = RErr.
Proof.
  intros H L. unfold parse_core. erewrite bind_ok by (apply ra_res_ok, H).
  unfold bind, get32, get at 1. destruct (Nat.ltb_spec (length b) 4); [reflexivity|lia].
Qed.
Lemma rel_ps s t p : rel s t p ->
  x_ps_v (promote (r_cur s) (r_nxt s)) = true -> x_ps (promote (r_cur s) (r_nxt s)) < 64.
Proof.
  intros (_ & _ & _ & (_ & Rp & _) & _ & _ & _ & _ & R64) E.
  rewrite E in Rp. apply R64. now rewrite <- Rp.
Qed.

Lemma peek_some slack b : (4 <= length slack)%nat -> exists v, peek32 slack b = Some v.
Proof.
  intros L. unfold peek32. rewrite firstn_length, app_length.
  destruct (Nat.eqb_spec (Nat.min 4 (length b + length slack)) 4); [eauto|lia].
Qed.

Lemma be_val_zeros n : be_val (repeat 0 n) = 0.
Proof.
  unfold be_val. induction n; cbn [repeat fold_left]; [reflexivity|]. exact IHn.
Qed.
Lemma firstn_repeat {A} (x : A) n m : firstn n (repeat x m) = repeat x (Nat.min n m).
Proof.
  revert m; induction n; intros m; [reflexivity|]. destruct m; [reflexivity|]. cbn. now rewrite IHn.
Qed.
Lemma skipn_repeat {A} (x : A) n m : skipn n (repeat x m) = repeat x (m - n).
Proof.
  revert m; induction n; intros m; [now rewrite Nat.sub_0_r|]. destruct m; [reflexivity|]. cbn. apply IHn.
Qed.
Lemma get_zeros n m : get n (repeat 0 m) = if Nat.ltb m n then RErr else ROk (0, repeat 0 (m - n)).
Proof.
  unfold get. rewrite repeat_length, firstn_repeat, skipn_repeat, be_val_zeros. reflexivity.
Qed.

Lemma header_zeros s k : parse_header s (repeat 0 k) = RErr.
Proof.
  unfold parse_header. unfold bind at 1, get32. rewrite get_zeros.
  destruct (Nat.ltb k 4); [reflexivity|]. change (0 =? 0) with true.
  erewrite bind_ok by apply guard_true.
  unfold bind at 1, get16. rewrite get_zeros. destruct (Nat.ltb _ 2); reflexivity.
Qed.

(** Unwritten (zero) space, or nothing at all, ends the trace. *)
Lemma zeros_end s t p slack k fuel :
  rel s t p -> r_prefixed s = false -> (4 <= length slack)%nat ->
  read_loop (S fuel) slack s (repeat 0 k) = ([], EndFalse).
Proof.
  intros R Pf L. cbn [read_loop]. unfold qtreader_next_record. cbn [skip_headers].
  destruct (peek_some slack (repeat 0 k) L) as [v E]. rewrite E, Pf. cbn [negb].
  rewrite andb_true_r. destruct (N.eqb_spec v 0).
  - rewrite header_zeros. reflexivity.
  - assert (Hk : (k < 4)%nat).
    { destruct (Nat.lt_ge_cases k 4); [assumption|]. exfalso. apply n.
      unfold peek32 in E. rewrite firstn_app, repeat_length in E.
      replace (4 - k)%nat with 0%nat in E by lia. rewrite firstn_O, app_nil_r, firstn_repeat in E.
      replace (Nat.min 4 k) with 4%nat in E by lia. rewrite be_val_zeros in E. now injection E. }
    unfold parse_record, bind. rewrite parse_core_short; [reflexivity|exact (rel_ps _ _ _ R)|].
    rewrite repeat_length. exact Hk.
Qed.
Lemma nil_end s t p slack fuel :
  rel s t p -> (4 <= length slack)%nat ->
  read_loop (S fuel) slack s [] = ([], EndFalse).
Proof.
  intros R L. cbn [read_loop]. unfold qtreader_next_record.
  assert (E : forall f s0, rel s0 t p -> match skip_headers f slack s0 [] with
     | ROk (s', b') => s' = s0 /\ b' = [] | RErr => True | RFault FFuel => f = 0%nat | _ => False end).
  { intros f s0 R0. destruct f; cbn [skip_headers]; destruct (peek_some slack [] L) as [v ->];
    (destruct (_ && _); [|auto]). reflexivity.
    change (parse_header s0 []) with (@RErr (rstate * list N)). exact Logic.I. }
  specialize (E (S (length (@nil N))) s R).
  destruct (skip_headers _ _ _ _) as [[s' b']| |f].
  - destruct E as [-> ->]. unfold parse_record, bind.
    rewrite parse_core_short; [reflexivity|exact (rel_ps _ _ _ R)|cbn; lia].
  - reflexivity.
  - destruct f; try contradiction. discriminate.
Qed.

(** ** Writer runs *)
Lemma write_all_true rs : forall st bs,
  winv st -> emitted (pend st) (w_magic st) rs = inr bs ->
  exists st', write_all st (map (fun r => (r, true)) rs) = inr st' /\ w_out st' = w_out st ++ bs /\
              winv st' /\ w_magic st' = w_magic st /\
              pend st' = match rs with [] => pend st | r :: rs' => Some (last rs' r) end.
Proof.
  induction rs as [|r rs IH]; intros st bs H E; cbn [emitted map write_all] in *.
  - injection E as <-. exists st. rewrite app_nil_r. auto.
  - pose proof (write_record_bytes st true r H) as W.
    apply eapp_ok in E as (x & y & Ex & Ey & ->).
    destruct (qtwriter_write_record st true r) as [st'|st'|e].
    + destruct W as (bs & Eb & Eo & Ep & Em & Hw & _). rewrite Ex in Eb. injection Eb as <-.
      rewrite <- Ep, <- Em in Ey. destruct (IH st' y Hw Ey) as (st2 & -> & Eo2 & Hw2 & Em2 & Ep2).
      exists st2. split; [reflexivity|]. rewrite Eo2, Eo, <- app_assoc. split; [reflexivity|].
      split; [assumption|]. split; [congruence|]. rewrite Ep2. destruct rs as [|q rs]; [assumption|].
      f_equal. destruct rs; [reflexivity|]. cbn [last]. destruct rs; [reflexivity|].
      apply last_default. discriminate.
    + destruct W as [_ W]. exfalso. apply W. now left.
    + destruct W as [W _]. congruence.
Qed.

Lemma successor_close st : close_rec st = successor (w_prev st).
Proof. unfold close_rec, successor, add64. now rewrite w64_pow. Qed.
Lemma successor_typed q : typed (successor q) /\ shifts_ok (successor q).
Proof.
  split.
  - unfold typed, typed_radix, word64s. cbn. repeat split; try lia; try (apply N.mod_lt; discriminate);
      repeat constructor; lia.
  - unfold shifts_ok. cbn. repeat split; discriminate.
Qed.
Lemma successor_disc q : discontinuity q (successor q) = false.
Proof. unfold discontinuity, successor. cbn [q_insn_addr]. now rewrite N.eqb_refl. Qed.
Lemma successor_pair q :
  (q_data_ra_valid q = true -> storable (q_radix_data q)) -> pair_frames q (successor q).
Proof.
  intros H. unfold pair_frames. rewrite successor_disc. cbv zeta. cbn [andb].
  split; [exact H|]. split; [discriminate|]. rewrite orb_false_r.
  destruct (q_data_ra_valid q); cbn [andb]; intuition discriminate.
Qed.

Lemma chain_frames_app rs : forall p c,
  chain_frames p rs -> typed c -> shifts_ok c ->
  (q_insn c = 0 -> is_prefix_word (q_insn (last rs p)) = true) ->
  pair_frames (last rs p) c -> chain_frames p (rs ++ [c]).
Proof.
  induction rs as [|x rs IH]; intros p c F T S Z P.
  - cbn in *. repeat (split; [assumption|]). split; assumption || (split; [assumption|exact Logic.I]).
  - destruct F as (Tx & Sx & Zx & Px & F). cbn [app chain_frames].
    repeat (split; [assumption|]). apply IH; auto.
    + destruct rs; [exact Z|]. rewrite (last_default (q :: rs) ltac:(discriminate) x p). exact Z.
    + destruct rs; [exact P|]. rewrite (last_default (q :: rs) ltac:(discriminate) x p). exact P.
Qed.
