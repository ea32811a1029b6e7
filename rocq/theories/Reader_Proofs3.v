(** Address chain and annotations. *)
Require Import NArith ZArith List Bool Lia Arith.
Require Import ZifyBool ZifyN ZifyNat.
Require Import Verif.Word Verif.Codec_Types Verif.Branch_Model Verif.Branch_Spec
  Verif.Branch_Proofs Verif.Reader_Model Verif.Reader_Spec Verif.Reader_Class
  Verif.Reader_Proofs Verif.Reader_Proofs2.
Import ListNotations.
Local Open Scope nat_scope.

(** ** Chain of addresses *)
Lemma skip_headers_none : forall f slack s b,
  4 <= length b -> u32_at b 0 <> 0%N \/ r_prefixed s = true ->
  skip_headers f slack s b = ROk (s, b).
Proof.
  intros f slack s b L H.
  assert (P : peek32 slack b = Some (u32_at b 0)).
  { unfold peek32, u32_at. cbn [skipn]. rewrite firstn_app.
    replace (4 - length b) with 0 by lia. rewrite firstn_O, app_nil_r, firstn_length.
    replace (Nat.min 4 (length b)) with 4 by lia. reflexivity. }
  assert (C : (u32_at b 0 =? 0)%N && negb (r_prefixed s) = false).
  { destruct H as [H| ->]; [|apply andb_false_r]. apply N.eqb_neq in H. now rewrite H. }
  destruct f; cbn [skip_headers]; rewrite P, C; reflexivity.
Qed.

Lemma next_record_len : forall slack s b x, qtreader_next_record slack s b = ROk x -> 4 <= length b.
Proof.
  intros slack s b [[r s'] b'] E. apply next_record_progress in E as (pre & -> & L).
  rewrite app_length. lia.
Qed.

Lemma chain : forall slack s b r1 s1 b1 r2 s2 b2,
  qtreader_next_record slack s b = ROk ((r1, s1), b1) ->
  qtreader_next_record slack s1 b1 = ROk ((r2, s2), b2) ->
  u32_at b1 0 <> 0%N \/ OPCODE (q_insn (o_q r1)) = 1%N ->
  q_insn_addr (o_q r2) = o_next_addr r1 /\
  q_insn (o_q r2) = u32_at b1 0 /\
  (has (u16_at b1 4) F_IAR = false ->
     o_next_addr r2 = ((q_insn_addr (o_q r2) + 4) mod 2 ^ 64)%N).
Proof.
  intros slack s b r1 s1 b1 r2 s2 b2 E1 E2 H.
  pose proof (next_record_len _ _ _ _ E2) as L.
  apply next_record_inv in E1 as (s0 & pre & b0 & _ & _ & E1).
  apply parse_record_inv in E1 as (r0 & E1 & HA).
  apply annotate_keeps in HA as (Hq & _ & _ & _ & _ & _ & _ & Hn).
  apply parse_core_inv in E1. destruct E1 as (_ & Ei & _ & En & Ep & _).
  rewrite Hq in H. rewrite Hn.
  unfold qtreader_next_record in E2. rewrite skip_headers_none in E2; auto.
  2:{ destruct H as [H|H]; [now left|right]. rewrite Ep. rewrite Ei in H. now rewrite H. }
  apply parse_record_inv in E2 as (r3 & E2 & HA).
  apply annotate_keeps in HA as (Hq2 & _ & _ & _ & _ & _ & _ & Hn2).
  apply parse_core_inv in E2. destruct E2 as (_ & Ei2 & Ea2 & _ & _ & Ei3 & _).
  rewrite Hq2, Hn2, Ea2, Ei2, En. repeat split; auto.
  intros HI. rewrite (Ei3 HI), En. reflexivity.
Qed.

(** ** Annotation only adds *)
Definition mapr {A B} (h : A -> B) (r : res (A * list N)) : res (B * list N) :=
  match r with ROk (a, b) => ROk (h a, b) | RErr => RErr | RFault f => RFault f end.

Lemma bind_map : forall A B C (h : B -> C) (p : P A) (f : A -> P B) (g : A -> P C) b,
  (forall a b', g a b' = mapr h (f a b')) -> bind p g b = mapr h (bind p f b).
Proof. intros. unfold bind. destruct (p b) as [[a b1]| |]; cbn [mapr]; auto. Qed.

Lemma parse_header_info : forall br tl s b,
  parse_header (set_info br tl s) b = mapr (set_info br tl) (parse_header s b).
Proof.
  intros. unfold parse_header.
  cbn [set_info r_version r_magic r_next_addr r_branch_info r_tlbie_info r_prefixed r_suffix
       r_cur r_nxt r_lpid_present r_lpid r_pid_present r_pid].
  repeat (apply bind_map; intros). reflexivity.
Qed.

Lemma skip_headers_info : forall br tl f slack s b,
  skip_headers f slack (set_info br tl s) b = mapr (set_info br tl) (skip_headers f slack s b).
Proof.
  induction f; intros; cbn [skip_headers set_info r_prefixed].
  - destruct (peek32 slack b); auto. destruct (_ && _); reflexivity.
  - destruct (peek32 slack b); auto. destruct (_ && _); [|reflexivity].
    change (mk_rs (r_version s) (r_magic s) (r_next_addr s) br tl (r_prefixed s) (r_suffix s)
        (r_cur s) (r_nxt s) (r_lpid_present s) (r_lpid s) (r_pid_present s) (r_pid s))
      with (set_info br tl s).
    rewrite parse_header_info. destruct (parse_header s b) as [[s1 b1]| |]; cbn [mapr]; auto.
Qed.

Lemma parse_core_info : forall br tl s b,
  parse_core (set_info br tl s) b
  = mapr (fun x => (fst x, set_info br tl (snd x))) (parse_core s b).
Proof.
  intros. unfold parse_core.
  cbn [set_info r_version r_magic r_next_addr r_branch_info r_tlbie_info r_prefixed r_suffix
       r_cur r_nxt r_lpid_present r_lpid r_pid_present r_pid].
  cbv zeta. repeat (apply bind_map; intros). reflexivity.
Qed.

(** The record, headers skipped, before annotation. *)
Definition next_core (slack : list N) (s : rstate) (b : list N) : res ((rrec * rstate) * list N) :=
  match skip_headers (S (length b)) slack s b with
  | ROk (s', b') => parse_core s' b'
  | RErr => RErr
  | RFault f => RFault f
  end.

Lemma skip_headers_keeps : forall f slack s b s' b',
  skip_headers f slack s b = ROk (s', b') ->
  r_branch_info s' = r_branch_info s /\ r_tlbie_info s' = r_tlbie_info s.
Proof.
  induction f; intros slack s b s' b' E; cbn [skip_headers] in E;
    destruct (peek32 slack b) as [v|]; try discriminate;
    destruct (_ && _); try discriminate; try (injection E as <- <-; auto).
  destruct (parse_header s b) as [[s1 b1]| |] eqn:H; try discriminate.
  apply IHf in E as [-> ->].
  unfold parse_header in H.
  do 23 (apply bind_inv in H as (? & ? & _ & H)).
  apply ret_pos in H as [_ ->]. auto.
Qed.

Lemma next_record_eq : forall br tl slack s b,
  qtreader_next_record slack (set_info br tl s) b =
  match next_core slack s b with
  | ROk ((r, s'), b') =>
      match annotate (set_info br tl s') r with
      | ROk r' => ROk ((r', set_info br tl s'), b')
      | RErr => RErr
      | RFault f => RFault f
      end
  | RErr => RErr
  | RFault f => RFault f
  end.
Proof.
  intros. unfold qtreader_next_record, next_core. rewrite skip_headers_info.
  destruct (skip_headers _ slack s b) as [[s1 b1]| |] eqn:H1; cbn [mapr]; auto.
  unfold parse_record. unfold bind at 1. rewrite parse_core_info.
  destruct (parse_core s1 b1) as [[[r s2] b2]| |] eqn:H2; cbn [mapr fst snd]; auto.
  apply parse_core_inv in H2. destruct H2 as (_ & _ & _ & _ & _ & _ & _ & _ & _ & _ & _ & _ & _ & _ & HL).
  unfold bind, lift, ret.
  assert (annotate (set_info br tl s1) r = annotate (set_info br tl s2) r) as ->.
  { unfold annotate. cbn [set_info r_branch_info r_tlbie_info r_lpid]. now rewrite HL. }
  destruct (annotate (set_info br tl s2) r); reflexivity.
Qed.


(** ** Branch annotation *)
Lemma LINK_isa : forall w, LINK w = isa_LK w.
Proof.
  intros. unfold LINK, isa_LK, fld. change 1%N with (N.ones 1) at 1. rewrite N.land_ones.
  change (2 ^ (31 - 31))%N with 1%N. now rewrite N.div_1_r.
Qed.
Lemma AA_isa : forall w, AA w = isa_AA w.
Proof.
  intros. unfold AA, isa_AA, fld. change 1%N with (N.ones 1) at 2.
  now rewrite N.land_ones, N.shiftr_div_pow2.
Qed.
Lemma BO_isa : forall w, BO w = isa_BO w.
Proof.
  intros. unfold BO, isa_BO, fld. change 0x1f%N with (N.ones 5).
  now rewrite N.land_ones, N.shiftr_div_pow2.
Qed.
Lemma BI_isa : forall w, BI w = isa_BI w.
Proof.
  intros. unfold BI, isa_BI, fld. change 0x1f%N with (N.ones 5).
  now rewrite N.land_ones, N.shiftr_div_pow2.
Qed.
Lemma BH_isa : forall w, BH w = isa_BH w.
Proof.
  intros. unfold BH, isa_BH, fld. change 3%N with (N.ones 2).
  now rewrite N.land_ones, N.shiftr_div_pow2.
Qed.
Lemma BD_isa : forall w, BD w = fld w 16 29.
Proof.
  intros. unfold BD, fld. change 0x3fff%N with (N.ones 14).
  now rewrite N.land_ones, N.shiftr_div_pow2.
Qed.

Lemma split_word : forall w, (w < w32)%N ->
  w = (isa_opcd w * 2 ^ 26 + isa_BO w * 2 ^ 21 + isa_BI w * 2 ^ 16 + fld w 16 29 * 4
       + isa_AA w * 2 + isa_LK w)%N.
Proof.
  intros w H. unfold isa_opcd, isa_BO, isa_BI, isa_AA, isa_LK, fld, w32 in *.
  change (31 - 5)%N with 26%N. change (31 - 10)%N with 21%N. change (31 - 15)%N with 16%N.
  change (31 - 29)%N with 2%N. change (31 - 30)%N with 1%N. change (31 - 31)%N with 0%N.
  change (5 - 0 + 1)%N with 6%N. change (10 - 6 + 1)%N with 5%N. change (15 - 11 + 1)%N with 5%N.
  change (29 - 16 + 1)%N with 14%N. change (30 - 30 + 1)%N with 1%N. change (31 - 31 + 1)%N with 1%N.
  rewrite N.pow_0_r, N.div_1_r.
  assert (E1 : (w / 2 ^ 1 = w / 2)%N) by reflexivity.
  assert (E2 : (w / 2 ^ 2 = w / 2 / 2)%N) by (rewrite N.div_div by lia; reflexivity).
  assert (E3 : (w / 2 ^ 16 = w / 2 / 2 / 2 ^ 14)%N) by (rewrite !N.div_div by lia; reflexivity).
  assert (E4 : (w / 2 ^ 21 = w / 2 / 2 / 2 ^ 14 / 2 ^ 5)%N) by (rewrite !N.div_div by lia; reflexivity).
  assert (E5 : (w / 2 ^ 26 = w / 2 / 2 / 2 ^ 14 / 2 ^ 5 / 2 ^ 5)%N) by (rewrite !N.div_div by lia; reflexivity).
  rewrite E1, E2, E3, E4, E5.
  pose proof (N.div_mod w 2 ltac:(lia)).
  set (a := (w / 2)%N) in *. pose proof (N.div_mod a 2 ltac:(lia)).
  set (b := (a / 2)%N) in *. pose proof (N.div_mod b (2 ^ 14) ltac:(lia)).
  set (c := (b / 2 ^ 14)%N) in *. pose proof (N.div_mod c (2 ^ 5) ltac:(lia)).
  set (d := (c / 2 ^ 5)%N) in *. pose proof (N.div_mod d (2 ^ 5) ltac:(lia)).
  set (e := (d / 2 ^ 5)%N) in *.
  assert (e < 64)%N.
  { assert (E6 : e = (w / 2 ^ 26)%N) by (rewrite E5; reflexivity). rewrite E6.
    apply N.div_lt_upper_bound; lia. }
  rewrite (N.mod_small e) by (change (2 ^ 6)%N with 64%N; lia).
  change (2 ^ 1)%N with 2%N in *. change (2 ^ 14)%N with 16384%N in *. change (2 ^ 5)%N with 32%N in *.
  change (2 ^ 26)%N with 67108864%N. change (2 ^ 21)%N with 2097152%N. change (2 ^ 16)%N with 65536%N.
  lia.
Qed.

Lemma idiom_iff : forall w, (w < w32)%N ->
  ((OPCODE w =? 16) && (AA w =? 0) && (LINK w =? 1)
   && ((BO w =? 20) && (BI w =? 31) && (BD w =? 1)) = (w =? ADDRESSING_IDIOM))%N.
Proof.
  intros w H. rewrite opcode_isa, AA_isa, LINK_isa, BO_isa, BI_isa, BD_isa by auto.
  destruct (w =? ADDRESSING_IDIOM)%N eqn:E.
  - apply N.eqb_eq in E. subst w. reflexivity.
  - apply N.eqb_neq in E.
    match goal with |- ?x = false => destruct x eqn:X; auto end.
    exfalso. apply E. rewrite (split_word w H).
    rewrite !andb_true_iff, !N.eqb_eq in X. destruct X as (((-> & ->) & ->) & ((-> & ->) & ->)).
    reflexivity.
Qed.

Lemma link_class_eq : forall w, (if LINK w =? 0 then BRANCH else CALL)%N = link_class w.
Proof.
  intros. unfold link_class. rewrite LINK_isa. unfold isa_LK, fld.
  change (2 ^ (31 - 31))%N with 1%N. change (2 ^ (31 - 31 + 1))%N with 2%N.
  pose proof (N.mod_lt (w / 1) 2 ltac:(lia)).
  destruct (w / 1 mod 2)%N as [|[p|p|]]; try reflexivity; exfalso; lia.
Qed.

Lemma annotate_branch_spec : forall w cond, (w < w32)%N ->
  (cond = true -> is_unconditional_branch w = false) ->
  (annotation_aborts w cond -> annotate_branch w cond = RFault FAssert) /\
  (~ annotation_aborts w cond -> annotate_branch w cond = ROk (branch_class w)).
Proof.
  intros w cond Hw HU.
  pose proof (bo_always_iff w) as BA.
  unfold annotate_branch. cbv zeta. rewrite idiom_iff, link_class_eq, BH_isa by auto.
  unfold annotation_aborts, isa_bo_branch, branch_class, assert_.
  assert (U : (is_unconditional_branch w = true -> cond = false)).
  { destruct cond; auto. intros X. rewrite (HU eq_refl) in X. discriminate. }
  unfold is_unconditional_branch in U. fold (OPCODE w) in U.
  change (N.shiftr w (32 - 6)) with (OPCODE w) in U.
  rewrite opcode_isa, ?subop_isa in * by auto.
  set (c := branch_conditional_is_conditional w) in *. clearbody c.
  destruct (w =? ADDRESSING_IDIOM)%N eqn:ID.
  { apply N.eqb_eq in ID. subst w. cbn in U, BA.
    assert (c = false) as -> by (apply BA; split; reflexivity).
    rewrite U by reflexivity. split; [intros (_ & X & _); congruence|reflexivity]. }
  apply N.eqb_neq in ID.
  destruct (isa_opcd w =? 18)%N eqn:O18.
  { apply N.eqb_eq in O18. rewrite O18 in *. cbn in U.
    assert (cond = false) as -> by (apply U; reflexivity).
    cbn. split; auto. intros ([X|[X _]] & _); discriminate. }
  destruct (isa_opcd w =? 16)%N eqn:O16.
  { apply N.eqb_eq in O16. rewrite O16 in *. cbn [orb].
    destruct cond; cbn; split; auto.
    - intros (_ & _ & X & _); discriminate.
    - intros X. exfalso. apply X. repeat split; auto. }
  apply N.eqb_neq in O18, O16. cbn [orb].
  destruct (isa_opcd w =? 17)%N eqn:O17.
  { apply N.eqb_eq in O17. rewrite O17. cbn. split; auto.
    intros ([X|[X _]] & _); discriminate. }
  apply N.eqb_neq in O17. cbn [orb].
  destruct (isa_opcd w =? 19)%N eqn:O19.
  2:{ apply N.eqb_neq in O19. split; auto. intros ([X|[X _]] & _); congruence. }
  apply N.eqb_eq in O19. rewrite O19 in *.
  assert (K : forall b : bool * btype, (isa_XO w = 16 \/ isa_XO w = 528 \/ isa_XO w = 560)%N ->
    ((19%N = 16%N \/ 19%N = 19%N /\ In (isa_XO w) [16; 528; 560]%N) /\
      w <> ADDRESSING_IDIOM /\ cond = false /\ (19%N = 16%N \/ ~ isa_BO_always w) ->
      (if Bool.eqb c cond then ROk b else RFault FAssert) = RFault FAssert) /\
    (~ ((19%N = 16%N \/ 19%N = 19%N /\ In (isa_XO w) [16; 528; 560]%N) /\
      w <> ADDRESSING_IDIOM /\ cond = false /\ (19%N = 16%N \/ ~ isa_BO_always w)) ->
      (if Bool.eqb c cond then ROk b else RFault FAssert) = ROk b)).
  { intros b HX. split.
    - intros (_ & _ & -> & [X|X]); [discriminate|].
      destruct c; [reflexivity|]. exfalso. apply X. now apply BA.
    - intros X. destruct c, cond; cbn [Bool.eqb]; auto.
      + exfalso. apply X. repeat split; auto.
        * right. split; auto. cbn. destruct HX as [->|[->| ->]]; auto.
        * right. intro Y. apply BA in Y. discriminate.
      + exfalso. assert (true = false); [|discriminate]. apply U.
        destruct HX as [->|[->| ->]]; reflexivity. }
  destruct (isa_XO w =? 16)%N eqn:X16.
  { apply N.eqb_eq in X16. apply K. auto. }
  destruct ((isa_XO w =? 528)%N || (isa_XO w =? 560)%N) eqn:X5.
  { apply orb_true_iff in X5. rewrite !N.eqb_eq in X5. apply K. tauto. }
  apply orb_false_iff in X5. rewrite !N.eqb_neq in X5. apply N.eqb_neq in X16.
  split.
  - intros ([X|[_ X]] & _); [discriminate|]. cbn in X. exfalso.
    destruct X as [X|[X|[X|[]]]]; symmetry in X; tauto.
  - intros _. match goal with |- (if ?x then _ else _) = _ => destruct x end; reflexivity.
Qed.

Lemma set_info_twice : forall a b c d s, set_info a b (set_info c d s) = set_info a b s.
Proof. reflexivity. Qed.

Lemma annotate_off : forall s r, annotate (set_info false false s) r = ROk r.
Proof.
  intros. unfold annotate. cbn [set_info r_branch_info r_tlbie_info]. rewrite andb_false_r.
  now destruct r.
Qed.

Lemma off_core : forall slack s b r s' b',
  qtreader_next_record slack (set_info false false s) b = ROk ((r, s'), b') ->
  exists s2, next_core slack s b = ROk ((r, s2), b') /\ s' = set_info false false s2.
Proof.
  intros slack s b r s' b' E. rewrite next_record_eq in E.
  destruct (next_core slack s b) as [[[r0 s0] b0]| |]; try discriminate.
  rewrite annotate_off in E. injection E as <- <- <-. eauto.
Qed.

Lemma next_core_facts : forall slack s b r s' b',
  is_bytes b -> next_core slack s b = ROk ((r, s'), b') ->
  (q_insn (o_q r) < w32)%N /\
  (q_cond (o_q r) = true -> is_unconditional_branch (q_insn (o_q r)) = false).
Proof.
  intros slack s b r s' b' HB E. unfold next_core in E.
  destruct (skip_headers _ _ _ _) as [[s1 b1]| |] eqn:H; try discriminate.
  destruct (cons_skip_headers _ _ _ _ _ _ H) as (pre & ->).
  assert (HB1 : is_bytes b1) by (apply Forall_app in HB; tauto).
  apply parse_core_inv in E. destruct E as (_ & Ei & _ & _ & _ & _ & _ & _ & _ & Ecu & _).
  rewrite Ei. pose proof (u32_at_lt b1 0 HB1) as L. split; auto.
  intros C. destruct (is_unconditional_branch _) eqn:U; auto.
  pose proof (cond_uncond_disjoint _ L) as D. rewrite U, (Ecu C eq_refl) in D. discriminate.
Qed.

Lemma branch_annotation : forall slack s b r s' b',
  is_bytes b ->
  qtreader_next_record slack (set_info false false s) b = ROk ((r, s'), b') ->
  let w := q_insn (o_q r) in
  let on := qtreader_next_record slack (set_info true false s) b in
  (q_branch (o_q r) = false -> on = ROk ((r, set_info true false s'), b')) /\
  (q_branch (o_q r) = true -> annotation_aborts w (q_cond (o_q r)) -> on = RFault FAssert) /\
  (q_branch (o_q r) = true -> ~ annotation_aborts w (q_cond (o_q r)) ->
     on = ROk ((with_class (branch_class w) r, set_info true false s'), b')).
Proof.
  intros slack s b r s' b' HB E. cbv zeta.
  apply off_core in E as (s2 & E & ->).
  pose proof (next_core_facts _ _ _ _ _ _ HB E) as (Hw & HU).
  destruct (annotate_branch_spec _ _ Hw HU) as [A1 A2].
  rewrite next_record_eq, E. unfold annotate. cbn [set_info r_branch_info r_tlbie_info].
  rewrite andb_true_r.
  split; [|split].
  - intros ->. now destruct r.
  - intros -> A. now rewrite (A1 A).
  - intros -> A. rewrite (A2 A). destruct (branch_class _) eqn:C. unfold with_class. reflexivity.
Qed.

(** ** tlbie annotation *)
Lemma RIC_isa : forall w, RIC w = isa_RIC w.
Proof.
  intros. unfold RIC, isa_RIC, fld. change 3%N with (N.ones 2).
  now rewrite N.land_ones, N.shiftr_div_pow2.
Qed.
Lemma PRS_isa : forall w, PRS w = isa_PRS w.
Proof.
  intros. unfold PRS, isa_PRS, fld. change 1%N with (N.ones 1) at 1.
  now rewrite N.land_ones, N.shiftr_div_pow2.
Qed.
Lemma R_isa : forall w, R_ w = isa_R w.
Proof.
  intros. unfold R_, isa_R, fld. change 1%N with (N.ones 1) at 1.
  now rewrite N.land_ones, N.shiftr_div_pow2.
Qed.
Lemma IS_isa : forall w, IS_ w = rb_IS w.
Proof.
  intros. unfold IS_, rb_IS, fld64. change 3%N with (N.ones 2).
  now rewrite N.land_ones, N.shiftr_div_pow2.
Qed.
Lemma AP_isa : forall w, AP w = rb_AP w.
Proof.
  intros. unfold AP, rb_AP, fld64. change 7%N with (N.ones 3).
  now rewrite N.land_ones, N.shiftr_div_pow2.
Qed.
Lemma SET_isa : forall w, SET w = rb_SET w.
Proof.
  intros. unfold SET, rb_SET, fld64. change 0xfff%N with (N.ones 12).
  now rewrite N.land_ones, N.shiftr_div_pow2.
Qed.
Lemma EPN_isa : forall w, EPN w = (rb_EPN w mod 2 ^ 51)%N.
Proof.
  intros. unfold EPN, rb_EPN, fld64. change 0x7ffffffffffff%N with (N.ones 51).
  rewrite N.land_ones, N.shiftr_div_pow2.
  change (63 - 51)%N with 12%N. change (51 - 0 + 1)%N with 52%N.
  change (2 ^ 52)%N with (2 ^ 51 * 2)%N. rewrite N.mod_mul_r by discriminate.
  rewrite (N.mul_comm (2 ^ 51)), N.mod_add by discriminate.
  now rewrite N.mod_mod by discriminate.
Qed.

Lemma annotate_tlbie_other : forall lpid w g, (w < w32)%N -> ~ is_tlbie w ->
  annotate_tlbie lpid w g = ROk zero_tlbie.
Proof.
  intros lpid w g Hw H. unfold annotate_tlbie, is_tlbie in *.
  rewrite opcode_isa, subop_isa by auto.
  destruct (isa_opcd w =? 31)%N eqn:O; [|reflexivity]. apply N.eqb_eq in O. cbn [negb].
  destruct (isa_XO w =? 274)%N eqn:A; [apply N.eqb_eq in A; tauto|].
  destruct (isa_XO w =? 306)%N eqn:B; [apply N.eqb_eq in B; tauto|]. reflexivity.
Qed.

Definition ap_ok (rb : N) : Prop := rb_IS rb <> 0%N \/ ap_shift (rb_AP rb) <> None.

Lemma annotate_tlbie_ok : forall lpid w g i j rb rs, (w < w32)%N -> is_tlbie w ->
  g_gprs_out g = [(i, rb); (j, rs)] -> isa_R w = 1%N -> ap_ok rb ->
  annotate_tlbie lpid w g = ROk (isa_tlbie w rb rs lpid 51).
Proof.
  intros lpid w g i j rb rs Hw (HO & HX) HG HR HAP. unfold annotate_tlbie.
  rewrite opcode_isa, subop_isa, HO by auto. cbn [N.eqb Pos.eqb negb].
  unfold isa_tlbie, is_tlbiel.
  assert (T : negb (isa_XO w =? 274)%N && negb (isa_XO w =? 306)%N = false).
  { destruct HX as [-> | ->]; reflexivity. }
  rewrite T, HG. cbv zeta.
  rewrite R_isa, RIC_isa, PRS_isa, IS_isa, AP_isa, SET_isa, EPN_isa, HR. cbn [N.eqb Pos.eqb negb].
  unfold ap_ok in HAP.
  assert (HL : N.land rs 0xffffffff = (rs mod 2 ^ 32)%N).
  { change 0xffffffff%N with (N.ones 32). apply N.land_ones. }
  rewrite HL. unfold u32. rewrite N.shiftr_div_pow2. fold w32. change (2 ^ 32)%N with w32.
  destruct (rb_IS rb =? 0)%N eqn:I.
  - apply N.eqb_eq in I. rewrite I in *. destruct HAP as [X|HAP]; [congruence|].
    assert (HE : u64 (N.shiftl (rb_EPN rb mod 2 ^ 51) 12) = (rb_EPN rb mod 2 ^ 51 * 2 ^ 12)%N).
    { rewrite N.shiftl_mul_pow2. unfold u64. apply N.mod_small.
      pose proof (N.mod_lt (rb_EPN rb) (2 ^ 51) ltac:(discriminate)).
      change w64 with (2 ^ 51 * 2 ^ 13)%N. nia. }
    rewrite HE. unfold ap_shift in *.
    destruct (rb_AP rb =? 0)%N; [reflexivity|]. destruct (rb_AP rb =? 5)%N; [reflexivity|].
    destruct (rb_AP rb =? 1)%N; [reflexivity|]. destruct (rb_AP rb =? 2)%N; [reflexivity|].
    congruence.
  - reflexivity.
Qed.

Lemma annotate_tlbie_reject : forall lpid w g, (w < w32)%N -> is_tlbie w ->
  (forall i j rb rs, g_gprs_out g = [(i, rb); (j, rs)] -> isa_R w = 1%N -> ap_ok rb -> False) ->
  annotate_tlbie lpid w g = RErr.
Proof.
  intros lpid w g Hw (HO & HX) HG. unfold annotate_tlbie.
  rewrite opcode_isa, subop_isa, HO by auto. cbn [N.eqb Pos.eqb negb].
  assert (T : negb (isa_XO w =? 274)%N && negb (isa_XO w =? 306)%N = false).
  { destruct HX as [-> | ->]; reflexivity. }
  rewrite T. cbv zeta.
  destruct (g_gprs_out g) as [|[i rb] [|[j rs] [|? ?]]]; auto.
  specialize (HG i j rb rs eq_refl). rewrite R_isa, IS_isa, AP_isa.
  destruct (isa_R w =? 1)%N eqn:R1; [|reflexivity]. apply N.eqb_eq in R1. specialize (HG R1).
  cbn [negb]. unfold ap_ok in HG.
  destruct (rb_IS rb =? 0)%N eqn:I.
  - unfold ap_shift in HG.
    destruct (rb_AP rb =? 0)%N; [exfalso; apply HG; right; discriminate|].
    destruct (rb_AP rb =? 5)%N; [exfalso; apply HG; right; discriminate|].
    destruct (rb_AP rb =? 1)%N; [exfalso; apply HG; right; discriminate|].
    destruct (rb_AP rb =? 2)%N; [exfalso; apply HG; right; discriminate|].
    reflexivity.
  - apply N.eqb_neq in I. exfalso. auto.
Qed.

Lemma tlbie_annotation : forall slack s b r s' b',
  is_bytes b ->
  qtreader_next_record slack (set_info false false s) b = ROk ((r, s'), b') ->
  let w := q_insn (o_q r) in
  let on := qtreader_next_record slack (set_info false true s) b in
  (~ is_tlbie w -> on = ROk ((r, set_info false true s'), b')) /\
  (forall i j rb rs, is_tlbie w -> g_gprs_out (o_regs r) = [(i, rb); (j, rs)] ->
     isa_R w = 1%N -> ap_ok rb ->
     on = ROk ((with_tlbie (isa_tlbie w rb rs (r_lpid s') 51) r, set_info false true s'), b')) /\
  (is_tlbie w ->
   (forall i j rb rs, g_gprs_out (o_regs r) = [(i, rb); (j, rs)] -> isa_R w = 1%N -> ap_ok rb -> False) ->
   on = RErr).
Proof.
  intros slack s b r s' b' HB E. cbv zeta.
  apply off_core in E as (s2 & E & ->).
  pose proof (next_core_facts _ _ _ _ _ _ HB E) as (Hw & _).
  assert (HT : o_tlbie r = zero_tlbie).
  { unfold next_core in E. destruct (skip_headers _ _ _ _) as [[s1 b1]| |]; try discriminate.
    apply parse_core_inv in E. tauto. }
  rewrite next_record_eq, E. unfold annotate. cbn [set_info r_branch_info r_tlbie_info r_lpid].
  rewrite andb_false_r.
  split; [|split].
  - intros H. rewrite annotate_tlbie_other, <- HT by auto. now destruct r.
  - intros i j rb rs H1 H2 H3 H4. rewrite (annotate_tlbie_ok _ _ _ i j rb rs) by auto. reflexivity.
  - intros H1 H2. rewrite annotate_tlbie_reject by auto. reflexivity.
Qed.

Lemma skip_headers_peek : forall fuel slack s b,
  length b < fuel -> skip_headers fuel slack s b = RFault FPeek ->
  exists pre b1, b = pre ++ b1 /\ length b1 + length slack < 4.
Proof.
  induction fuel; intros slack s b HL E; [lia|]. cbn [skip_headers] in E.
  destruct (peek32 slack b) eqn:HP.
  - destruct (_ && _); [|discriminate].
    destruct (parse_header s b) as [[s1 b1]| |] eqn:H; try discriminate.
    + destruct (cons_parse_header _ _ _ _ H) as (p1 & -> & L). rewrite app_length in HL.
      apply IHfuel in E as (p2 & b2 & -> & L2); [|lia].
      exists (p1 ++ p2), b2. now rewrite app_assoc.
    + injection E as ->. apply (of_parse_header (fun f => f = FArray)) in H; [discriminate|reflexivity].
  - exists [], b. split; auto. unfold peek32 in HP.
    destruct (Nat.eqb _ 4) eqn:L; [discriminate|]. apply Nat.eqb_neq in L.
    rewrite firstn_length, app_length in L. lia.
Qed.
Lemma next_record_peek : forall slack s b,
  qtreader_next_record slack s b = RFault FPeek ->
  exists pre b1, b = pre ++ b1 /\ length b1 + length slack < 4.
Proof.
  intros slack s b E. unfold qtreader_next_record in E.
  destruct (skip_headers _ _ _ _) as [[s1 b1]| |] eqn:H; try discriminate.
  - apply parse_record_fault in E. unfold soft in E. destruct E as [E|[E|E]]; discriminate.
  - injection E as ->. apply skip_headers_peek in H; auto.
Qed.

Lemma rb_EPN_eq : forall rb, (rb < w64)%N -> rb_EPN rb = (rb / 4096)%N.
Proof.
  intros rb H. unfold rb_EPN, fld64. change (2 ^ (63 - 51))%N with 4096%N.
  change (2 ^ (51 - 0 + 1))%N with 4503599627370496%N. apply N.mod_small.
  apply N.div_lt_upper_bound; [discriminate|]. exact H.
Qed.
Lemma epn_low_half : forall w rb rs lpid, (rb < 2 ^ 63)%N ->
  isa_tlbie w rb rs lpid 51 = isa_tlbie w rb rs lpid 52.
Proof.
  intros w rb rs lpid H. unfold isa_tlbie. cbv zeta.
  assert (HE : rb_EPN rb = (rb / 4096)%N).
  { apply rb_EPN_eq. eapply N.lt_trans; [exact H|reflexivity]. }
  assert (HB : (rb_EPN rb < 2 ^ 51)%N).
  { rewrite HE. apply N.div_lt_upper_bound; [discriminate|]. exact H. }
  rewrite (N.mod_small (rb_EPN rb) (2 ^ 51)) by exact HB.
  rewrite (N.mod_small (rb_EPN rb) (2 ^ 52)); [reflexivity|].
  eapply N.lt_trans; [exact HB|reflexivity].
Qed.
Lemma epn_high_half : forall w rb rs lpid,
  (2 ^ 63 <= rb < 2 ^ 64)%N -> rb_IS rb = 0%N ->
  t_addr (isa_tlbie w rb rs lpid 52) = (t_addr (isa_tlbie w rb rs lpid 51) + 2 ^ 63)%N.
Proof.
  intros w rb rs lpid [H1 H2] HI. unfold isa_tlbie. cbv zeta. cbn [t_addr]. rewrite HI.
  cbn [N.eqb]. rewrite rb_EPN_eq by exact H2.
  change (2 ^ 52)%N with 4503599627370496%N. change (2 ^ 51)%N with 2251799813685248%N.
  change (2 ^ 12)%N with 4096%N. change (2 ^ 63)%N with 9223372036854775808%N in *.
  change (2 ^ 64)%N with 18446744073709551616%N in *.
  assert (L : (2251799813685248 <= rb / 4096)%N) by (apply N.div_le_lower_bound; lia).
  assert (U : (rb / 4096 < 4503599627370496)%N) by (apply N.div_lt_upper_bound; lia).
  set (e := (rb / 4096)%N) in *. clearbody e.
  rewrite (N.mod_small e 4503599627370496) by exact U.
  replace e with (e - 2251799813685248 + 1 * 2251799813685248)%N at 2 by lia.
  rewrite N.mod_add by discriminate. rewrite N.mod_small by lia. lia.
Qed.
