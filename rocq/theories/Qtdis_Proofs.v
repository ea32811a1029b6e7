(** Proofs for C61: qtdis against the reader's loop. *)
Require Import Arith NArith List Bool Lia ZifyBool ZifyN ZifyNat.
Require Import Verif.Word Verif.Codec_Types Verif.Branch_Model Verif.Reader_Model Verif.Reader_Spec
  Verif.Reader_Proofs Verif.Reader_Proofs2 Verif.Reader_Proofs3.
Require Import Verif.Codec_Spec Verif.Qtdis_Model Verif.Qtdis_Spec.
Import ListNotations.
Local Open Scope N_scope.

(** ** The reader's idea of prefix and suffix *)
Lemma parse_core_suffix : forall s b r s' b', parse_core s b = ROk ((r, s'), b') ->
  r_suffix s' = (if r_prefixed s then q_insn (o_q r) else r_suffix s).
Proof.
  intros s b r s' b' E. unfold parse_core in E. cbv zeta in E.
  do 27 (apply bind_inv in E as (? & ? & ? & E)).
  apply ret_pos in E as [_ E]. apply pair_equal_spec in E as [-> ->]. reflexivity.
Qed.
Lemma parse_header_prefix : forall s b s' b', parse_header s b = ROk (s', b') ->
  r_prefixed s' = r_prefixed s /\ r_suffix s' = r_suffix s.
Proof.
  intros s b s' b' H. unfold parse_header in H. do 23 (apply bind_inv in H as (? & ? & _ & H)).
  apply ret_pos in H as [_ ->]. auto.
Qed.
Lemma skip_headers_prefix : forall f slack s b s' b', skip_headers f slack s b = ROk (s', b') ->
  r_prefixed s' = r_prefixed s /\ r_suffix s' = r_suffix s.
Proof.
  induction f; intros slack s b s' b' E; cbn [skip_headers] in E;
    destruct (peek32 slack b) as [v|]; try discriminate;
    destruct (_ && _); try discriminate; try (injection E as <- <-; auto).
  destruct (parse_header s b) as [[s1 b1]| |] eqn:H; try discriminate.
  apply IHf in E as [-> ->]. apply (parse_header_prefix _ _ _ _ H).
Qed.

Definition pre_word (w : N) : bool := w / 2 ^ 26 =? 1.
(** The state of the reader behind the words [ws], latest first *)
Definition knows (s : rstate) (ws : list N) : Prop :=
  r_prefixed s = match ws with w :: _ => pre_word w | [] => false end /\ r_suffix s = latest_suffix ws.
Lemma opcode_pre : forall w, (OPCODE w =? 1) = pre_word w.
Proof.
  intros w. unfold OPCODE, pre_word. rewrite N.shiftr_div_pow2. reflexivity.
Qed.
Lemma next_knows : forall slack s b r s' b' ws, knows s ws -> qtreader_next_record slack s b = ROk ((r, s'), b') ->
  knows s' (word r :: ws) /\ r_next_addr s' = o_next_addr r /\ r_prefixed s' = prefix r.
Proof.
  intros slack s b r s' b' ws [K1 K2] E. apply next_record_inv in E as (s1 & pre & b1 & _ & EH & E).
  apply skip_headers_prefix in EH as [H1 H2].
  apply parse_record_inv in E as (r0 & E & HA). apply annotate_keeps in HA as (Hq & _ & _ & _ & _ & _ & _ & Hn).
  pose proof (parse_core_suffix _ _ _ _ _ E) as ES. apply parse_core_inv in E.
  destruct E as (_ & Ei & _ & En & Ep & _).
  assert (W : word r = u32_at b1 0) by (unfold word; rewrite Hq; exact Ei).
  assert (P : r_prefixed s' = prefix r).
  { rewrite Ep, opcode_pre. unfold prefix. rewrite W. reflexivity. }
  split; [split|split].
  - rewrite P. reflexivity.
  - rewrite ES, H1, H2, K1, K2. unfold word. rewrite Hq.
    destruct ws as [|w ws]; [reflexivity|]. cbn [latest_suffix]. reflexivity.
  - rewrite Hn. exact En.
  - exact P.
Qed.

(** ** Listing, statistics, basic blocks *)
Definition emit (o : options) (x : N * list N) : list out :=
  (if stats o || blocks o then [] else [Line (fst x) (snd x)])
  ++ (if stats o then [Stat (fst x) (hd 0 (snd x))] else [])
  ++ (if blocks o then [Block (fst x)] else []).
Definition items (a : N) (ws : list N) (l : list (rrec * option rrec)) : list (N * list N) :=
  combine (at_addresses a l) (shown_words ws l).

Lemma loop_listing : forall o slack, dump_nr o = 0 -> forall n s b ws l, (length b < n)%nat -> knows s ws ->
  read_loop n slack s b = (l, EndFalse) -> whole l = true ->
  read_qt_loop n o slack s b (r_next_addr s) = (flat_map (emit o) (items (r_next_addr s) ws (insns l)), QDone).
Proof.
  intros o slack D n. induction n as [n IH] using lt_wf_ind. intros s b ws l L K R W.
  destruct n as [|n]; [lia|]. cbn [read_loop] in R. cbn [read_qt_loop].
  destruct (qtreader_next_record slack s b) as [[[r s1] b1]| |f] eqn:E1; [|injection R as <-; reflexivity|discriminate].
  destruct (next_knows _ _ _ _ _ _ _ K E1) as (K1 & N1 & P1).
  apply next_record_progress in E1 as (pre & EB & LP).
  destruct (read_loop n slack s1 b1) as [l1 e1] eqn:R1. injection R as <- ->.
  rewrite P1. cbn [whole insns] in *.
  assert (PR : forall a, print_qt_record o s1 r a
    = inl (emit o (a, word r :: (if prefix r then [r_suffix s1] else [])))).
  { intros a. unfold print_qt_record, emit. rewrite D, P1. cbn [N.eqb negb fst snd hd]. reflexivity. }
  destruct (prefix r) eqn:PF; cbn [negb].
  - destruct n as [|n]; [subst b; rewrite app_length in L; lia|]. cbn [read_loop] in R1.
    destruct (qtreader_next_record slack s1 b1) as [[[r2 s2] b2]| |f] eqn:E2;
      [|injection R1 as <-; discriminate|discriminate].
    destruct (next_knows _ _ _ _ _ _ _ K1 E2) as (K2 & N2 & P2).
    apply next_record_progress in E2 as (pre2 & EB2 & LP2).
    destruct (read_loop n slack s2 b2) as [l2 e2] eqn:R2. injection R1 as <- ->.
    rewrite PR.
    assert (L2 : (length b2 < n)%nat) by (subst b b1; rewrite !app_length in L; lia).
    assert (LS : (length b2 < S n)%nat) by lia.
    rewrite (read_loop_fuel n (S n) slack s2 b2 L2 LS) in R2.
    rewrite (IH (S n) ltac:(lia) s2 b2 (word r2 :: word r :: ws) l2 LS K2 R2 W).
    unfold items. cbn [at_addresses shown_words combine flat_map behind snd]. rewrite N2.
    destruct K1 as [_ ->]. reflexivity.
  - rewrite PR.
    assert (L1 : (length b1 < n)%nat) by (subst b; rewrite app_length in L; lia).
    rewrite (IH n ltac:(lia) s1 b1 (word r :: ws) l1 L1 K1 R1 W).
    unfold items. cbn [at_addresses shown_words combine flat_map behind snd fst]. rewrite N1. reflexivity.
Qed.

Definition start_of (b : list N) : N :=
  match qtreader_initialize b with ROk (s, _) => r_next_addr s | _ => 0 end.
Lemma init_knows : forall b s b', qtreader_initialize b = ROk (s, b') -> knows (set_info false false s) [].
Proof. intros b s b' E. apply parse_header_prefix in E as [A B]. split; [exact A|exact B]. Qed.

Lemma listing : forall o slack b l s b', dump_nr o = 0 -> qtreader_initialize b = ROk (s, b') ->
  read_trace false false slack b = (l, EndFalse) -> whole l = true ->
  read_qt o slack b = (flat_map (emit o) (items (r_next_addr s) [] (insns l)), QDone).
Proof.
  intros o slack b l s b' D E R W. unfold read_qt. unfold read_trace in R. rewrite E in *.
  apply (loop_listing o slack D (S (length b')) (set_info false false s) b' [] l (Nat.lt_succ_diag_r _) (init_knows _ _ _ E) R W).
Qed.

Lemma at_length : forall l a, length (at_addresses a l) = length l.
Proof. induction l as [|i l IH]; intros a; [reflexivity|]. cbn. rewrite IH. reflexivity. Qed.
Lemma shown_length : forall l ws, length (shown_words ws l) = length l.
Proof. induction l as [|[r [r2|]] l IH]; intros ws; [reflexivity| |]; cbn; rewrite IH; reflexivity. Qed.
Lemma items_fst : forall l a ws, map fst (items a ws l) = at_addresses a l.
Proof.
  intros l a ws. unfold items. revert a ws. induction l as [|[r [r2|]] l IH]; intros a ws; [reflexivity| |]; cbn; rewrite IH; reflexivity.
Qed.
Lemma items_hd : forall l a ws, map (fun x => hd 0 (snd x)) (items a ws l) = map (fun i => word (fst i)) l.
Proof.
  intros l a ws. unfold items. revert a ws. induction l as [|[r [r2|]] l IH]; intros a ws; [reflexivity| |]; cbn; rewrite IH; reflexivity.
Qed.

Lemma flat_lines : forall o x, stats o = false -> blocks o = false -> lines (flat_map (emit o) x) = x.
Proof.
  intros o x A B. induction x as [|[a w] x IH]; [reflexivity|]. cbn [flat_map]. unfold lines in *.
  rewrite flat_map_app, IH. unfold emit. rewrite A, B. reflexivity.
Qed.
Lemma flat_logged : forall o x, stats o = true -> logged (flat_map (emit o) x) = map (fun x => (fst x, hd 0 (snd x))) x.
Proof.
  intros o x A. induction x as [|[a w] x IH]; [reflexivity|]. cbn [flat_map map]. unfold logged in *.
  rewrite flat_map_app, IH. unfold emit. rewrite A. destruct (blocks o); reflexivity.
Qed.
Lemma flat_counted : forall o x, blocks o = true -> counted (flat_map (emit o) x) = map fst x.
Proof.
  intros o x A. induction x as [|[a w] x IH]; [reflexivity|]. cbn [flat_map map]. unfold counted in *.
  rewrite flat_map_app, IH. unfold emit. rewrite A. destruct (stats o); reflexivity.
Qed.
