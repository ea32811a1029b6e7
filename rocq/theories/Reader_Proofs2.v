(** More facts about the reader on arbitrary bytes: array bounds, coherence of
    the returned fields, annotations. *)
Require Import NArith ZArith List Bool Lia Arith.
Require Import ZifyBool ZifyN ZifyNat.
Require Import Verif.Word Verif.Codec_Types Verif.Branch_Model Verif.Branch_Spec
  Verif.Branch_Proofs Verif.Reader_Model Verif.Reader_Spec Verif.Reader_Proofs.
Import ListNotations.
Local Open Scope nat_scope.

(** ** Positions *)
Lemma skipn_add : forall A n m (l : list A), skipn n (skipn m l) = skipn (m + n) l.
Proof.
  induction m; intros l; cbn [skipn Nat.add]; auto.
  destruct l; [now rewrite skipn_nil|apply IHm].
Qed.
Lemma get_pos : forall n o b v r, get n (skipn o b) = ROk (v, r) ->
  r = skipn (o + n) b /\ v = be_val (firstn n (skipn o b)) /\ o + n <= length b \/ n = 0.
Proof.
  intros n o b v r E. unfold get in E. destruct (_ <? _) eqn:L; [discriminate|].
  apply Nat.ltb_ge in L. rewrite skipn_length in L.
  injection E as <- <-. rewrite skipn_add. destruct n; auto. left. repeat split; auto. lia.
Qed.
Lemma get_pos' : forall n o b v r, get n (skipn o b) = ROk (v, r) ->
  r = skipn (o + n) b /\ v = be_val (firstn n (skipn o b)).
Proof.
  intros n o b v r E. unfold get in E. destruct (_ <? _) eqn:L; [discriminate|].
  injection E as <- <-. rewrite skipn_add. auto.
Qed.
Lemma skip_pos : forall n o b v r, skip n (skipn o b) = ROk (v, r) -> r = skipn (o + n) b.
Proof.
  intros n o b v r E. unfold skip in E. destruct (_ <? _) eqn:L; [discriminate|].
  injection E as <- <-. now rewrite skipn_add.
Qed.
Lemma opt_get_pos : forall c n d o b v r, opt c (get n) d (skipn o b) = ROk (v, r) ->
  r = skipn (o + len c n) b /\ v = (if c then be_val (firstn n (skipn o b)) else d).
Proof.
  intros [] n d o b v r E; cbn [opt len] in *; [now apply get_pos'|].
  injection E as <- <-. now rewrite Nat.add_0_r.
Qed.
Lemma opt_skip_pos : forall c n d o b v r, opt c (skip n) d (skipn o b) = ROk (v, r) ->
  r = skipn (o + len c n) b.
Proof.
  intros [] n d o b v r E; cbn [opt len] in *; [now apply skip_pos in E|].
  injection E as <- <-. now rewrite Nat.add_0_r.
Qed.
Lemma guard_pos : forall c b u r, guard c b = ROk (u, r) -> r = b /\ c = true.
Proof. intros [] b u r E; [now injection E|discriminate]. Qed.
Lemma ret_pos : forall A (a x : A) b r, ret a b = ROk (x, r) -> r = b /\ x = a.
Proof. intros A a x b r E. now injection E as <- <-. Qed.

Lemma read_arr_pos : forall n cap o b v r, read_arr n cap (skipn o b) = ROk (v, r) ->
  r = skipn (o + 8 * n) b.
Proof.
  induction n; intros cap o b v r E; cbn [read_arr] in E.
  - apply ret_pos in E as [-> _]. f_equal; lia.
  - apply bind_inv in E as (x & b1 & E1 & E2). apply get_pos' in E1 as [-> _].
    destruct cap; [discriminate|]. apply bind_inv in E2 as (y & b2 & E3 & E4).
    apply IHn in E3 as ->. apply ret_pos in E4 as [-> _]. f_equal; lia.
Qed.
Lemma read_rows_pos : forall w nr rc cc o b v r, read_rows w nr rc cc (skipn o b) = ROk (v, r) ->
  r = skipn (o + 8 * (w * nr)) b.
Proof.
  induction w; intros nr rc cc o b v r E; cbn [read_rows] in E.
  - apply ret_pos in E as [-> _]. f_equal; lia.
  - apply bind_inv in E as (x & b1 & E1 & E2). apply read_arr_pos in E1 as ->.
    apply bind_inv in E2 as (y & b2 & E3 & E4).
    apply IHw in E3 as ->. apply ret_pos in E4 as [-> _]. f_equal. cbn [Nat.mul]. lia.
Qed.

Lemma nth_skipn0 : forall A (l : list A) o d, nth 0 (skipn o l) d = nth o l d.
Proof.
  induction l; intros [|o] d; cbn [skipn nth]; auto.
Qed.
Lemma skipn_cons : forall A (l : list A) o x t, skipn o l = x :: t -> skipn (o + 1) l = t.
Proof.
  intros A l o x t H. rewrite <- skipn_add, H. reflexivity.
Qed.

(** get_count, in terms of positions. *)
Lemma get_count_pos : forall hm gm k o b v r,
  get_count hm gm k (skipn o b) = ROk (v, r) ->
  v = (if counted hm gm then byte_at b o else if (hm =? 0)%N then k else 0%N) /\
  (r = [] \/ r = skipn (o + len (counted hm gm) 1) b).
Proof.
  intros hm gm k o b v r E. unfold get_count, MODE_RADIX in E. unfold counted, byte_at.
  destruct ((hm =? 0)%N && (gm =? 0)%N); cbn [len].
  - rewrite <- nth_skipn0. destruct (skipn o b) as [|x t] eqn:S; injection E as <- <-; cbn [nth]; split; auto.
    right. symmetry. now apply skipn_cons in S.
  - destruct (hm =? 0)%N; injection E as <- <-; split; auto; right; now rewrite Nat.add_0_r.
Qed.

Definition nofa {A} (p : P A) (b : list N) : Prop := p b <> RFault FArray.

Lemma nofa_bind : forall A B (p : P A) (f : A -> P B) b,
  nofa p b -> (forall a b', p b = ROk (a, b') -> nofa (f a) b') -> nofa (bind p f) b.
Proof.
  intros A B p f b Hp Hf E. unfold bind in E.
  destruct (p b) as [[a b1]| |] eqn:H; try discriminate; [|congruence].
  eapply Hf; eauto.
Qed.
Lemma nofa_of : forall A (p : P A) b, only_faults (fun f => f <> FArray) p -> nofa p b.
Proof. intros A p b H E. apply H in E. now apply E. Qed.

Lemma nofa_read_arr : forall n cap b, n <= cap -> nofa (read_arr n cap) b.
Proof.
  induction n; intros cap b H; cbn [read_arr]; [intro E; discriminate|].
  apply nofa_bind; [apply nofa_of; of_tac|]. intros a b' _.
  destruct cap; [lia|]. apply nofa_bind; [apply IHn; lia|]. intros; intro E; discriminate.
Qed.
Lemma nofa_read_rows : forall w nr rc cc b, w <= rc -> nr <= cc -> nofa (read_rows w nr rc cc) b.
Proof.
  induction w; intros nr rc cc b H H2; cbn [read_rows]; [intro E; discriminate|].
  apply nofa_bind; [apply nofa_read_arr; destruct rc; lia|]. intros a b' _.
  apply nofa_bind; [apply IHw; lia|]. intros; intro E; discriminate.
Qed.
Lemma nofa_read_regs : forall n cap g b, n <= cap -> only_faults (fun f => f <> FArray) g ->
  nofa (read_regs n cap g) b.
Proof.
  induction n; intros cap g b H Hg; cbn [read_regs]; [intro E; discriminate|].
  apply nofa_bind; [now apply nofa_of|]. intros a b' _.
  destruct cap; [lia|]. apply nofa_bind; [apply nofa_of; of_tac|]. intros.
  apply nofa_bind; [apply IHn; auto; lia|]. intros; intro E; discriminate.
Qed.

(** Counts read by get_count when nothing is left: zero. *)
Lemma nofa_parse_walk : forall hm gm st old o b,
  walk_counts_ok hm gm b o -> nofa (parse_walk hm gm st old) (skipn o b).
Proof.
  intros hm gm st old o b H. unfold parse_walk.
  apply nofa_bind; [apply nofa_of; of_tac|]. intros nr b1 E1.
  apply nofa_bind; [apply nofa_of; of_tac|]. intros w b2 E2.
  assert (Hnr : (nr <= 4)%N /\ (w <= 5)%N).
  { apply get_count_pos in E1 as [-> [-> | ->]].
    - change (@nil N) with (skipn 0 (@nil N)) in E2. apply get_count_pos in E2 as [-> _].
      unfold walk_counts_ok in H. unfold NR_RADIX_PTES.
      destruct (counted hm gm); [specialize (H eq_refl)|].
      + change (byte_at [] 0) with 0%N. lia.
      + destruct (hm =? 0)%N; cbn; lia.
    - apply get_count_pos in E2 as [-> _]. unfold walk_counts_ok in H. unfold NR_RADIX_PTES.
      destruct (counted hm gm); cbn [len]; [specialize (H eq_refl); lia|].
      destruct (hm =? 0)%N; cbn; lia. }
  destruct (w =? 1)%N eqn:W1; [|destruct (1 <? w)%N eqn:W2].
  - apply nofa_bind; [apply nofa_read_arr; unfold NR_RADIX_PTES; lia|]. intros; intro E; discriminate.
  - apply nofa_bind; [apply nofa_read_rows; unfold NR_RADIX_PTES, MAX_RADIX_WALKS; lia|]. intros.
    apply nofa_bind; [apply nofa_read_arr; unfold MAX_RADIX_WALKS; lia|]. intros.
    apply nofa_bind; [apply nofa_read_arr; unfold MAX_RADIX_WALKS; lia|]. intros; intro E; discriminate.
  - intro E; discriminate.
Qed.

(** A walk ends exactly [walk_len] bytes further, or at the end. *)
Lemma parse_walk_pos : forall hm gm st old o b v r,
  parse_walk hm gm st old (skipn o b) = ROk (v, r) -> r = [] \/ r = skipn (o + walk_len hm gm b o) b.
Proof.
  intros hm gm st old o b v r E. unfold parse_walk in E.
  apply bind_inv in E as (nr & b1 & E1 & E2).
  apply get_count_pos in E1 as [Hnr [-> | ->]].
  { left. eapply cons_nil; [|exact E2]. cons0; auto using cons_read_arr, cons_read_rows. }
  apply bind_inv in E2 as (w & b2 & E2 & E3).
  apply get_count_pos in E2 as [Hw [-> | ->]].
  { left. eapply cons_nil; [|exact E3]. cons0; auto using cons_read_arr, cons_read_rows. }
  right. unfold walk_len.
  destruct (counted hm gm); cbn [len] in *.
  - rewrite <- Hnr, <- Hw.
    destruct (w =? 1)%N eqn:W1; [|destruct (1 <? w)%N eqn:W2].
    + replace (N.to_nat w =? 1)%nat with true by lia.
      apply bind_inv in E3 as (x & b3 & E3 & E4). apply read_arr_pos in E3 as ->.
      apply ret_pos in E4 as [-> _]. f_equal; lia.
    + replace (N.to_nat w =? 1)%nat with false by lia.
      replace (1 <? N.to_nat w)%nat with true by lia.
      apply bind_inv in E3 as (x & b3 & E3 & E4). apply read_rows_pos in E3 as ->.
      apply bind_inv in E4 as (y & b4 & E4 & E5). apply read_arr_pos in E4 as ->.
      apply bind_inv in E5 as (z & b5 & E5 & E6). apply read_arr_pos in E5 as ->.
      apply ret_pos in E6 as [-> _]. f_equal. lia.
    + replace (N.to_nat w =? 1)%nat with false by lia.
      replace (1 <? N.to_nat w)%nat with false by lia.
      apply ret_pos in E3 as [-> _]. f_equal. lia.
  - rewrite !Nat.add_0_r in *. destruct (hm =? 0)%N; subst nr w.
    + cbn [N.eqb Pos.eqb] in E3.
      apply bind_inv in E3 as (x & b3 & E3 & E4). apply read_arr_pos in E3 as ->.
      apply ret_pos in E4 as [-> _]. f_equal.
    + cbn in E3. apply ret_pos in E3 as [-> _]. f_equal; lia.
Qed.
Lemma opt_walk_pos : forall c hm gm st old d o b v r,
  opt c (parse_walk hm gm st old) d (skipn o b) = ROk (v, r) ->
  (r = [] /\ c = true) \/ r = skipn (o + len c (walk_len hm gm b o)) b.
Proof.
  intros [] * E; cbn [opt len] in *; [apply parse_walk_pos in E as [-> | ->]; auto|].
  apply ret_pos in E as [-> _]. right. now rewrite Nat.add_0_r.
Qed.

Lemma parse_term_pos : forall o b v r, parse_term (skipn o b) = ROk (v, r) ->
  r = skipn (o + 2) b /\ snd (fst v) <> 0%N.
Proof.
  intros o b v r E. unfold parse_term in E.
  apply bind_inv in E as (x & b1 & E1 & E2). apply get_pos' in E1 as [-> _].
  apply bind_inv in E2 as (y & b2 & E2 & E3). apply get_pos' in E2 as [-> _].
  rewrite <- Nat.add_assoc in E3. cbn [Nat.add] in E3.
  destruct (_ || _) eqn:T1; [|destruct ((y =? T_UNCONDITIONAL)%N || _) eqn:T2; [|discriminate]];
    apply ret_pos in E3 as [-> ->]; split; auto; cbn [fst snd];
    unfold T_MAX_INST_DEPTH, T_MAX_BRANCH_DEPTH, T_UNCONDITIONAL, T_EXCEPTION in *; lia.
Qed.
Lemma opt_term_pos : forall c d o b v r, opt c parse_term d (skipn o b) = ROk (v, r) ->
  r = skipn (o + len c 2) b /\ (if c then snd (fst v) <> 0%N else v = d).
Proof.
  intros [] * E; cbn [opt len] in *; [now apply parse_term_pos in E|].
  apply ret_pos in E as [-> ->]. rewrite Nat.add_0_r. auto.
Qed.

Lemma mode_at_eq : forall f sh, mode f sh = mode_at f sh.
Proof.
  intros. unfold mode, mode_at, MODE_MASK. rewrite N.shiftr_div_pow2.
  change 3%N with (N.ones 2). now rewrite N.land_ones.
Qed.

Ltac nofa_of_tac :=
  apply nofa_of; of_tac;
  auto using of_parse_term; try (apply of_ra_res; discriminate).

Lemma parse_header_no_array : forall s b, header_counts_ok b -> nofa (parse_header s) b.
Proof.
  intros s b H. unfold parse_header.
  change b with (skipn 0 b) at 1.
  do 1 (apply nofa_bind; [nofa_of_tac|intros insn b1 E]); apply get_pos' in E as [-> _].
  apply nofa_bind; [nofa_of_tac|intros ? b1 E]; apply guard_pos in E as [-> _].
  apply nofa_bind; [nofa_of_tac|intros fl b1 E]; apply get_pos' in E as [-> _].
  apply nofa_bind; [nofa_of_tac|intros ? b1 E]; apply guard_pos in E as [-> _].
  apply nofa_bind; [nofa_of_tac|intros fl2 b1 E]; apply get_pos' in E as [-> E2].
  apply nofa_bind; [nofa_of_tac|intros ? b1 E]; apply guard_pos in E as [-> _].
  apply nofa_bind; [nofa_of_tac|intros ? b1 E]; apply guard_pos in E as [-> _].
  apply nofa_bind; [nofa_of_tac|intros fl3 b1 E]; apply opt_get_pos in E as [-> E3].
  apply nofa_bind; [nofa_of_tac|intros hf b1 E]; apply get_pos' in E as [-> E4].
  apply nofa_bind; [nofa_of_tac|intros ? b1 E]; apply guard_pos in E as [-> _].
  do 3 (apply nofa_bind; [nofa_of_tac|intros ? b1 E]; apply opt_get_pos in E as [-> _]).
  apply nofa_bind; [nofa_of_tac|intros ? b1 E]; apply opt_skip_pos in E as ->.
  cbn [Nat.add] in *.
  change (be_val (firstn 2 (skipn 6 b))) with (h_flags2 b) in E2.
  apply nofa_bind.
  - destruct (has hf HDR_IAR_RPN) eqn:HR; [|intro X; discriminate].
    destruct (has fl2 F2_EXT2) eqn:HE; [|intro X; discriminate]. cbn [andb opt].
    subst fl2. unfold header_counts_ok in H. fold (h_ext2 b) in HE.
    rewrite HE in *. cbn [len] in *.
    assert (Ehf : hf = h_hf b) by (rewrite E4; unfold h_hf; rewrite HE; reflexivity).
    rewrite <- Ehf in H. specialize (H HR eq_refl).
    assert (E3' : fl3 = h_flags3 b) by (rewrite E3; unfold h_flags3; rewrite HE; reflexivity).
    rewrite !mode_at_eq. subst fl3 hf. unfold h_walk_off in H. rewrite HE in H. cbn [len] in H.
    rewrite Ehf, E3'. apply nofa_parse_walk. exact H.
  - intros. nofa_of_tac.
Qed.

Lemma be_val1 : forall b o, be_val (firstn 1 (skipn o b)) = byte_at b o.
Proof.
  intros. unfold byte_at. rewrite <- nth_skipn0. destruct (skipn o b); reflexivity.
Qed.
Lemma get8_pos : forall o b v r, get8 (skipn o b) = ROk (v, r) ->
  r = skipn (o + 1) b /\ v = byte_at b o.
Proof. intros o b v r E. apply get_pos' in E as [-> ->]. now rewrite be_val1. Qed.

Lemma regs_no_array : forall version b o,
  (let h := (4 + len (0x7000000 <=? version)%N 1)%nat in
   byte_at b o <= 32 /\ byte_at b (o + 1)%nat <= 3 /\ byte_at b (o + h - 1)%nat <= 4 /\
   byte_at b (o + h)%nat <= 32 /\ byte_at b (o + h + 1)%nat <= 3 /\
   byte_at b (o + h + h - 1)%nat <= 4)%N ->
  nofa (do_parse_regs version) (skipn o b).
Proof.
  intros version b o H. unfold do_parse_regs.
  set (v7 := (0x7000000 <=? version)%N) in *. clearbody v7. cbv zeta in H.
  apply nofa_bind; [nofa_of_tac|intros gi b1 E]; apply get8_pos in E as [-> H1].
  apply nofa_bind; [nofa_of_tac|intros fi b1 E]; apply get8_pos in E as [-> H2].
  apply nofa_bind; [nofa_of_tac|intros vi b1 E]; apply get8_pos in E as [-> _].
  apply nofa_bind; [nofa_of_tac|intros vsi b1 E]; apply opt_get_pos in E as [-> _].
  apply nofa_bind; [nofa_of_tac|intros si b1 E]; apply get8_pos in E as [-> H3].
  apply nofa_bind; [nofa_of_tac|intros go b1 E]; apply get8_pos in E as [-> H4].
  apply nofa_bind; [nofa_of_tac|intros fo b1 E]; apply get8_pos in E as [-> H5].
  apply nofa_bind; [nofa_of_tac|intros vo b1 E]; apply get8_pos in E as [-> _].
  apply nofa_bind; [nofa_of_tac|intros vso b1 E]; apply opt_get_pos in E as [-> _].
  apply nofa_bind; [nofa_of_tac|intros so b1 E]; apply get8_pos in E as [-> H6].
  assert (gi <= 32 /\ fi <= 3 /\ si <= 4 /\ go <= 32 /\ fo <= 3 /\ so <= 4)%N.
  { rewrite H1, H2, H3, H4, H5, H6. destruct H as (Ha & Hb & Hc & Hd & He & Hf).
    set (k := len v7 1) in *. clearbody k.
    replace (o + 1 + 1 + 1 + k) with (o + (4 + k) - 1) by lia.
    replace (o + (4 + k) - 1 + 1) with (o + (4 + k)) by lia.
    replace (o + (4 + k) + 1 + 1 + 1 + k) with (o + (4 + k) + (4 + k) - 1) by lia.
    repeat split; assumption. }
  apply nofa_bind; [apply nofa_read_regs; [lia|of_tac]|intros].
  apply nofa_bind; [apply nofa_read_regs; [lia|of_tac]|intros].
  apply nofa_bind; [nofa_of_tac|intros].
  apply nofa_bind; [nofa_of_tac|intros].
  apply nofa_bind; [apply nofa_read_regs; [lia|of_tac]|intros].
  apply nofa_bind; [apply nofa_read_regs; [lia|of_tac]|intros].
  apply nofa_bind; [apply nofa_read_regs; [lia|of_tac]|intros].
  apply nofa_bind; [nofa_of_tac|intros].
  apply nofa_bind; [nofa_of_tac|intros].
  apply nofa_bind; [apply nofa_read_regs; [lia|of_tac]|intros].
  nofa_of_tac.
Qed.

Lemma parse_core_no_array : forall s b,
  record_counts_ok b (r_version s) -> nofa (parse_core s) b.
Proof.
  intros s b (HD & HI & HRg). unfold parse_core. cbv zeta.
  apply nofa_bind; [nofa_of_tac|intros ra b1 E].
  assert (b1 = b) as -> by
    (unfold ra_res in E; destruct (x_rpn_v _); [destruct (real_addr _ _ _ _); [|discriminate]|];
     now apply ret_pos in E as [-> _]). clear E.
  change b with (skipn 0 b) at 1.
  apply nofa_bind; [nofa_of_tac|intros insn b1 E]; apply get_pos' in E as [-> _].
  apply nofa_bind; [nofa_of_tac|intros fl b1 E]; apply get_pos' in E as [-> Ef].
  apply nofa_bind; [nofa_of_tac|intros fl2 b1 E]; apply opt_get_pos in E as [-> Ef2].
  apply nofa_bind; [nofa_of_tac|intros fl3 b1 E]; apply opt_get_pos in E as [-> Ef3].
  apply nofa_bind; [nofa_of_tac|intros ? b1 E]; apply guard_pos in E as [-> _].
  apply nofa_bind; [nofa_of_tac|intros ? b1 E]; apply guard_pos in E as [-> _].
  apply nofa_bind; [nofa_of_tac|intros node b1 E]; apply opt_get_pos in E as [-> _].
  apply nofa_bind; [nofa_of_tac|intros tm b1 E]; apply opt_term_pos in E as [-> _].
  apply nofa_bind; [nofa_of_tac|intros ? b1 E]; apply opt_get_pos in E as [-> _].
  apply nofa_bind; [nofa_of_tac|intros da b1 E]; apply opt_get_pos in E as [-> _].
  apply nofa_bind; [nofa_of_tac|intros ? b1 E]; apply opt_skip_pos in E as ->.
  cbn [Nat.add] in Ef.
  assert (Hf : fl = f_flags b) by exact Ef.
  assert (Hf2 : fl2 = f_flags2 b).
  { rewrite Ef2, Hf. reflexivity. }
  assert (Hf3 : fl3 = f_flags3 b).
  { rewrite Ef3, Hf, Hf2. unfold f_flags3, f_ext2, f_ext.
    destruct (has (f_flags b) F_EXT); reflexivity. }
  clear Ef Ef2 Ef3. rewrite !mode_at_eq. subst fl fl2 fl3.
  match goal with |- nofa _ (skipn ?o b) => replace o with (off_dwalk b) by reflexivity end.
  apply nofa_bind.
  { fold (f_dwalk b). destruct (f_dwalk b) eqn:W; [|intro X; discriminate]. cbn [opt].
    apply nofa_parse_walk. exact (HD eq_refl). }
  intros drx b1 E. apply opt_walk_pos in E.
  apply nofa_bind; [nofa_of_tac|intros drpn b2 E2].
  assert (b2 = skipn (off_iar b) b) as ->.
  { destruct E as [[-> W] | ->].
    - apply andb_true_iff in W as [W _]. rewrite W in E2. discriminate.
    - apply opt_get_pos in E2 as [-> _]. reflexivity. }
  clear E E2 b1.
  apply nofa_bind; [nofa_of_tac|intros next b1 E]; apply opt_get_pos in E as [-> _].
  apply nofa_bind; [nofa_of_tac|intros ? b1 E]; apply opt_skip_pos in E as ->.
  match goal with |- nofa _ (skipn ?o b) => change o with (off_iwalk b) end.
  apply nofa_bind.
  { fold (f_iwalk b). destruct (f_iwalk b) eqn:W; [|intro X; discriminate]. cbn [opt].
    apply nofa_parse_walk. exact (HI eq_refl). }
  intros irx b1 E. apply opt_walk_pos in E.
  apply nofa_bind; [nofa_of_tac|intros irpn b2 E2].
  assert (b2 = skipn (off_regs b) b) as ->.
  { destruct E as [[-> W] | ->].
    - apply andb_true_iff in W as [W _]. rewrite W in E2. discriminate.
    - apply opt_get_pos in E2 as [-> _]. reflexivity. }
  clear E E2 b1.
  apply nofa_bind.
  { destruct (has (f_flags b) F_REGISTER_TRACE) eqn:W; [|intro X; discriminate]. cbn [opt].
    apply regs_no_array. exact (HRg eq_refl). }
  intros. nofa_of_tac.
Qed.

Lemma parse_record_no_array : forall s b,
  record_counts_ok b (r_version s) -> nofa (parse_record s) b.
Proof.
  intros s b H. unfold parse_record. apply nofa_bind; [now apply parse_core_no_array|].
  intros [r s'] b' _ E. unfold bind, lift in E. cbn [fst] in E.
  destruct (annotate s r) eqn:HA; try discriminate. injection E as ->.
  apply annotate_fault in HA. discriminate.
Qed.

(** ** What a returned record says *)
Lemma parse_core_inv : forall s b r s' b',
  parse_core s b = ROk ((r, s'), b') ->
  let flags := f_flags b in
  let term := has flags F_TERMINATION in
  let q := o_q r in
  let insn := u32_at b 0 in
  4 <= length b /\
  q_insn q = insn /\ q_insn_addr q = r_next_addr s /\ r_next_addr s' = o_next_addr r /\
  r_prefixed s' = (OPCODE insn =? 1)%N /\
  (has flags F_IAR = false -> o_next_addr r = add64 (r_next_addr s) 4) /\
  (o_term_code r <> 0%N <-> term = true) /\
  q_branch q = term || is_conditional_branch insn /\
  (term = false -> q_cond q = is_conditional_branch insn) /\
  (q_cond q = true -> is_unconditional_branch insn = true -> is_conditional_branch insn = true) /\
  o_taken r = (term && negb (o_next_addr r =? add64 (r_next_addr s) 4)%N) /\
  o_direct r = false /\ o_btype r = BRANCH /\ o_tlbie r = zero_tlbie /\
  r_lpid s' = r_lpid s.
Proof.
  intros s b r s' b' E. unfold parse_core in E. cbv zeta in E.
  apply bind_inv in E as (ra & b1 & E1 & E).
  assert (b1 = b) as -> by
    (unfold ra_res in E1; destruct (x_rpn_v _); [destruct (real_addr _ _ _ _); [|discriminate]|];
     now apply ret_pos in E1 as [-> _]). clear E1.
  change b with (skipn 0 b) in E.
  apply bind_inv in E as (insn & b1 & E1 & E).
  assert (HL : 4 <= length b).
  { destruct (cons_get _ _ _ _ E1) as (pre & Hb & Hl). cbn [skipn] in Hb. subst b.
    rewrite app_length. lia. }
  apply get_pos' in E1 as [-> Hi]. fold (u32_at b 0) in Hi.
  apply bind_inv in E as (fl & b1 & E1 & E). apply get_pos' in E1 as [-> Hf].
  assert (Hf' : fl = f_flags b) by exact Hf. clear Hf; rename Hf' into Hf.
  apply bind_inv in E as (fl2 & b1 & E1 & E). apply opt_get_pos in E1 as [-> _].
  apply bind_inv in E as (fl3 & b1 & E1 & E). apply opt_get_pos in E1 as [-> _].
  apply bind_inv in E as (? & b1 & E1 & E). apply guard_pos in E1 as [-> _].
  apply bind_inv in E as (? & b1 & E1 & E). apply guard_pos in E1 as [-> _].
  apply bind_inv in E as (node & b1 & E1 & E). apply opt_get_pos in E1 as [-> _].
  apply bind_inv in E as (tm & b1 & E1 & E). apply opt_term_pos in E1 as [-> Ht].
  apply bind_inv in E as (? & b1 & E1 & E). clear E1.
  apply bind_inv in E as (da & b2 & E1 & E). clear E1.
  apply bind_inv in E as (? & b3 & E1 & E). clear E1.
  apply bind_inv in E as (drx & b4 & E1 & E). clear E1.
  apply bind_inv in E as (drpn & b5 & E1 & E). clear E1.
  apply bind_inv in E as (next & b6 & En & E).
  do 12 (apply bind_inv in E as (? & ? & E1 & E); clear E1).
  apply ret_pos in E as [_ E]. apply pair_equal_spec in E as [-> ->].
  subst insn fl. cbn [o_q q_insn q_insn_addr o_next_addr r_next_addr r_prefixed o_term_code
    q_branch q_cond o_taken o_direct o_btype o_tlbie r_lpid]. cbv zeta.
  repeat (split; [solve [auto]|]).
  split.
  { intros HI. rewrite HI in En. cbn [opt] in En. apply ret_pos in En as [_ ->]. reflexivity. }
  split.
  { destruct (has (f_flags b) F_TERMINATION); [tauto|]. subst tm. cbn. split; [congruence|discriminate]. }
  split; [reflexivity|].
  split. { intros ->. reflexivity. }
  split. { destruct (has (f_flags b) F_TERMINATION); auto.
           intros A B. apply andb_true_iff in A as [_ A]. rewrite B in A. discriminate. }
  repeat split; reflexivity.
Qed.

Lemma annotate_keeps : forall s r r', annotate s r = ROk r' ->
  o_q r' = o_q r /\ o_taken r' = o_taken r /\ o_regs r' = o_regs r /\
  o_node_valid r' = o_node_valid r /\ o_node r' = o_node r /\ o_term_code r' = o_term_code r /\
  o_term_node r' = o_term_node r /\ o_next_addr r' = o_next_addr r.
Proof.
  intros s r r' E. unfold annotate in E.
  repeat match type of E with
  | context [match ?x with _ => _ end] => destruct x; try discriminate
  end; injection E as <-; cbn; auto 10.
Qed.

Lemma parse_record_inv : forall s b r s' b', parse_record s b = ROk ((r, s'), b') ->
  exists r0, parse_core s b = ROk ((r0, s'), b') /\ annotate s r0 = ROk r.
Proof.
  intros s b r s' b' E. unfold parse_record in E. apply bind_inv in E as ([r0 s0] & b1 & E1 & E2).
  cbn [fst snd] in E2. apply bind_inv in E2 as (r1 & b2 & E2 & E3).
  unfold lift in E2. destruct (annotate s r0) eqn:HA; try discriminate.
  injection E2 as <- <-. apply ret_pos in E3 as [-> E3]. injection E3 as -> ->.
  eauto.
Qed.

Lemma be_val_lt : forall l a k, Forall (fun x => (x < 256)%N) l ->
  (a < 256 ^ N.of_nat k)%N ->
  (fold_left (fun a b => a * 256 + b) l a < 256 ^ N.of_nat (k + length l))%N.
Proof.
  induction l as [|x l IH]; intros a k H Ha; cbn [fold_left length].
  - now rewrite Nat.add_0_r.
  - inversion H; subst. replace (k + S (length l)) with (S k + length l) by lia.
    apply IH; auto. rewrite Nat2N.inj_succ, N.pow_succ_r'. lia.
Qed.
Lemma u32_at_lt : forall b o, is_bytes b -> (u32_at b o < w32)%N.
Proof.
  intros b o H. unfold u32_at, be_val.
  assert (F : Forall (fun x => (x < 256)%N) (firstn 4 (skipn o b))).
  { unfold is_bytes in H. rewrite Forall_forall in *. intros x Hx. apply H.
    rewrite <- (firstn_skipn o b). apply in_or_app. right.
    rewrite <- (firstn_skipn 4 (skipn o b)). apply in_or_app. now left. }
  apply (be_val_lt _ 0%N 0) in F; [|cbn; lia].
  eapply N.lt_le_trans; [exact F|].
  transitivity (256 ^ 4)%N; [|reflexivity]. apply N.pow_le_mono_r; [lia|].
  rewrite firstn_length. lia.
Qed.

(** Where the record proper starts: after the embedded headers. *)
Lemma next_record_inv : forall slack s b r s' b',
  qtreader_next_record slack s b = ROk ((r, s'), b') ->
  exists s1 pre b1, b = pre ++ b1 /\
    skip_headers (S (length b)) slack s b = ROk (s1, b1) /\
    parse_record s1 b1 = ROk ((r, s'), b').
Proof.
  intros slack s b r s' b' E. unfold qtreader_next_record in E.
  destruct (skip_headers _ _ _ _) as [[s1 b1]| |] eqn:H; try discriminate.
  destruct (cons_skip_headers _ _ _ _ _ _ H) as (pre & Hb). eauto 10.
Qed.

Lemma branch_flags_coherent : forall slack s b r s' b',
  is_bytes b -> qtreader_next_record slack s b = ROk ((r, s'), b') ->
  let q := o_q r in
  (q_cond q = true -> q_branch q = true) /\
  (o_taken r = true -> q_branch q = true) /\
  (o_taken r = true <->
     o_term_code r <> 0%N /\ o_next_addr r <> ((q_insn_addr q + 4) mod 2 ^ 64)%N) /\
  ((isa_bo_branch (q_insn q) /\ isa_BO_always (q_insn q)) \/ isa_always_branch (q_insn q) ->
     q_cond q = false) /\
  (isa_bo_branch (q_insn q) -> ~ isa_BO_always (q_insn q) -> o_term_code r = 0%N ->
     q_branch q = true /\ q_cond q = true /\ o_taken r = false) /\
  (q_branch q = true -> o_term_code r <> 0%N \/ (isa_bo_branch (q_insn q) /\ ~ isa_BO_always (q_insn q))).
Proof.
  intros slack s b r s' b' HB E. apply next_record_inv in E as (s1 & pre & b1 & -> & _ & E).
  apply parse_record_inv in E as (r0 & E & HA).
  apply annotate_keeps in HA as (Hq & Ht & _ & _ & _ & Hc & _ & Hn).
  rewrite Hq, Ht, Hc, Hn. cbv zeta.
  assert (HB1 : is_bytes b1) by (apply Forall_app in HB; tauto).
  apply parse_core_inv in E.
  destruct E as (_ & Ei & Ea & _ & _ & _ & Etc & Ebr & Ecn & Ecu & Etk & _).
  set (w := u32_at b1 0) in *. assert (Hw : (w < w32)%N) by now apply u32_at_lt.
  pose proof (cond_spec w Hw) as CS. pose proof (uncond_spec w Hw) as US.
  pose proof (cond_uncond_disjoint w Hw) as DJ.
  rewrite Ei, Ea, Ebr, Etk in *. unfold add64, w64 in *. 
  set (term := has (f_flags b1) F_TERMINATION) in *.
  change (2 ^ 64)%N with 18446744073709551616%N.
  destruct term.
  - cbn [orb andb]. repeat split; auto; try discriminate.
    + now apply Etc.
    + intros X. rewrite X, N.eqb_refl in H. discriminate.
    + intros [_ H]. apply negb_true_iff, N.eqb_neq. auto.
    + intros H. apply US in H. destruct (q_cond (o_q r0)) eqn:C; auto.
      rewrite (Ecu eq_refl H) in DJ. rewrite H in DJ. discriminate.
    + exfalso. apply Etc in H1; auto.
    + exfalso. apply Etc in H1; auto.
    + left. now apply Etc.
  - cbn [orb andb]. rewrite (Ecn eq_refl).
    repeat split; auto; try discriminate.
    + intros [H _]. apply Etc in H. discriminate.
    + intros H. apply US in H. rewrite H in DJ. destruct (is_conditional_branch w); auto.
    + intros; apply CS; auto.
    + intros; apply CS; auto.
    + intros H. right. apply CS. exact H.
Qed.
