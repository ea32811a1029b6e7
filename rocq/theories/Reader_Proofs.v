(** Facts about the reader on arbitrary bytes. *)
Require Import NArith ZArith List Bool Lia Arith.
Require Import ZifyBool ZifyN ZifyNat.
Require Import Verif.Word Verif.Codec_Types Verif.Branch_Model Verif.Reader_Model.
Import ListNotations.
Local Open Scope nat_scope.

(** ** Consumption *)
Definition cons_at_least {A} (k : nat) (p : P A) : Prop :=
  forall b a b', p b = ROk (a, b') -> exists pre, b = pre ++ b' /\ k <= length pre.

Lemma cons_weaken : forall A k k' (p : P A), k' <= k -> cons_at_least k p -> cons_at_least k' p.
Proof. intros A k k' p Hk H b a b' E. destruct (H _ _ _ E) as (pre & ? & ?). exists pre; split; auto; lia. Qed.

Lemma bind_inv : forall A B (p : P A) (f : A -> P B) b x,
  bind p f b = ROk x -> exists a b1, p b = ROk (a, b1) /\ f a b1 = ROk x.
Proof.
  intros A B p f b x H. unfold bind in H. destruct (p b) as [[a b1]| |]; try discriminate; eauto.
Qed.

Lemma cons_bind : forall A B k1 k2 (p : P A) (f : A -> P B),
  cons_at_least k1 p -> (forall a, cons_at_least k2 (f a)) -> cons_at_least (k1 + k2) (bind p f).
Proof.
  intros A B k1 k2 p f Hp Hf b c b' E. apply bind_inv in E as (a & b1 & E1 & E2).
  destruct (Hp _ _ _ E1) as (p1 & -> & ?). destruct (Hf _ _ _ _ E2) as (p2 & -> & ?).
  exists (p1 ++ p2). rewrite app_assoc, app_length. split; auto; lia.
Qed.
Lemma cons_bind0 : forall A B k (p : P A) (f : A -> P B),
  cons_at_least 0 p -> (forall a, cons_at_least k (f a)) -> cons_at_least k (bind p f).
Proof. intros. change k with (0 + k). now apply cons_bind. Qed.
Lemma cons_ret : forall A (a : A), cons_at_least 0 (ret a).
Proof. intros A a b x b' E; injection E as <- <-. exists []; split; auto. Qed.
Lemma cons_err : forall A k, cons_at_least k (@err A).
Proof. intros A k b a b' E; discriminate. Qed.
Lemma cons_fault : forall A k f, cons_at_least k (@fault A f).
Proof. intros A k f b a b' E; discriminate. Qed.
Lemma cons_guard : forall c, cons_at_least 0 (guard c).
Proof. intros []; [apply cons_ret|apply cons_err]. Qed.
Lemma cons_get : forall n, cons_at_least n (get n).
Proof.
  intros n b a b' E. unfold get in E. destruct (length b <? n) eqn:L; [discriminate|].
  injection E as <- <-. exists (firstn n b). rewrite firstn_skipn. split; auto.
  apply Nat.ltb_ge in L. rewrite firstn_length. lia.
Qed.
Lemma cons_skip : forall n, cons_at_least n (skip n).
Proof.
  intros n b a b' E. unfold skip in E. destruct (length b <? n) eqn:L; [discriminate|].
  injection E as <- <-. exists (firstn n b). rewrite firstn_skipn. split; auto.
  apply Nat.ltb_ge in L. rewrite firstn_length. lia.
Qed.
Lemma cons_opt : forall A c (p : P A) d, cons_at_least 0 p -> cons_at_least 0 (opt c p d).
Proof. intros A [] p d H; [exact H|apply cons_ret]. Qed.
Lemma cons_lift : forall A (r : res A), cons_at_least 0 (lift r).
Proof.
  intros A [x| |] b a b' E; cbn in E; try discriminate. injection E as <- <-.
  exists []; split; auto.
Qed.
Lemma cons_get_count : forall hm gm k, cons_at_least 0 (get_count hm gm k).
Proof.
  intros hm gm k b a b' E. unfold get_count in E.
  destruct (_ && _); [destruct b|destruct (_ =? _)%N]; injection E as <- <-;
    (exists []; split; auto; fail) || (eexists [_]; split; [reflexivity|cbn; lia]).
Qed.

Ltac cons0 :=
  repeat (match goal with
  | |- forall _, _ => intro
  | |- cons_at_least 0 (bind _ _) => apply cons_bind0
  | |- cons_at_least 0 (get _) => eapply cons_weaken; [|apply cons_get]; lia
  | |- cons_at_least 0 get8 => eapply cons_weaken; [|apply cons_get]; lia
  | |- cons_at_least 0 get16 => eapply cons_weaken; [|apply cons_get]; lia
  | |- cons_at_least 0 get32 => eapply cons_weaken; [|apply cons_get]; lia
  | |- cons_at_least 0 get64 => eapply cons_weaken; [|apply cons_get]; lia
  | |- cons_at_least 0 (skip _) => eapply cons_weaken; [|apply cons_skip]; lia
  | |- cons_at_least 0 (ret _) => apply cons_ret
  | |- cons_at_least _ err => apply cons_err
  | |- cons_at_least _ (fault _) => apply cons_fault
  | |- cons_at_least 0 (guard _) => apply cons_guard
  | |- cons_at_least 0 (opt _ _ _) => apply cons_opt
  | |- cons_at_least 0 (lift _) => apply cons_lift
  | |- cons_at_least 0 (get_count _ _ _) => apply cons_get_count
  | |- cons_at_least 0 (if ?c then _ else _) => destruct c
  | |- cons_at_least 0 (match ?c with _ => _ end) => destruct c
  end).

Lemma cons_read_arr : forall n cap, cons_at_least 0 (read_arr n cap).
Proof. induction n; intros cap; cbn [read_arr]; cons0. apply IHn. Qed.
Lemma cons_read_rows : forall w nr rc cc, cons_at_least 0 (read_rows w nr rc cc).
Proof. induction w; intros; cbn [read_rows]; cons0; auto using cons_read_arr. Qed.
Lemma cons_read_regs : forall n cap g, cons_at_least 0 g -> cons_at_least 0 (read_regs n cap g).
Proof. induction n; intros cap g Hg; cbn [read_regs]; cons0; auto. Qed.
Lemma cons_parse_walk : forall hm gm st old, cons_at_least 0 (parse_walk hm gm st old).
Proof. intros; unfold parse_walk; cons0; auto using cons_read_arr, cons_read_rows. Qed.
Lemma cons_do_parse_regs : forall v, cons_at_least 0 (do_parse_regs v).
Proof. intros; unfold do_parse_regs; cons0; apply cons_read_regs; cons0. Qed.
Lemma cons_parse_term : cons_at_least 0 parse_term.
Proof. unfold parse_term; cons0. Qed.
Lemma cons_ra_res : forall v r pv p e, cons_at_least 0 (ra_res v r pv p e).
Proof. intros; unfold ra_res; cons0. Qed.

Lemma cons_parse_header : forall s, cons_at_least 10 (parse_header s).
Proof.
  intros s. unfold parse_header.
  apply (cons_bind _ _ 4 6); [apply cons_get|intro].
  apply cons_bind0; [apply cons_guard|intro].
  apply (cons_bind _ _ 2 4); [apply cons_get|intro].
  apply cons_bind0; [apply cons_guard|intro].
  apply (cons_bind _ _ 2 2); [apply cons_get|intro].
  do 2 (apply cons_bind0; [apply cons_guard|intro]).
  apply cons_bind0; [cons0|intro].
  apply (cons_bind _ _ 2 0); [apply cons_get|intro].
  cons0; apply cons_parse_walk.
Qed.

Lemma cons_parse_core : forall s, cons_at_least 6 (parse_core s).
Proof.
  intros s. unfold parse_core.
  apply cons_bind0; [apply cons_ra_res|intro].
  apply (cons_bind _ _ 4 2); [apply cons_get|intro].
  apply (cons_bind _ _ 2 0); [apply cons_get|intro].
  cons0; auto using cons_parse_walk, cons_parse_term, cons_do_parse_regs, cons_ra_res.
Qed.
Lemma cons_parse_record : forall s, cons_at_least 6 (parse_record s).
Proof.
  intros s. unfold parse_record. apply (cons_bind _ _ 6 0); [apply cons_parse_core|].
  cons0.
Qed.

Lemma cons_skip_headers : forall fuel slack s b s' b',
  skip_headers fuel slack s b = ROk (s', b') -> exists pre, b = pre ++ b'.
Proof.
  induction fuel; intros slack s b s' b' E; cbn [skip_headers] in E;
    destruct (peek32 slack b) as [v|]; try discriminate;
    destruct (_ && _); try discriminate;
    try (injection E as <- <-; exists []; reflexivity).
  destruct (parse_header s b) as [[s1 b1]| |] eqn:H; try discriminate.
  destruct (cons_parse_header _ _ _ _ H) as (p1 & -> & _).
  destruct (IHfuel _ _ _ _ _ E) as (p2 & ->). exists (p1 ++ p2). now rewrite app_assoc.
Qed.

Lemma next_record_progress : forall slack s b r s' b',
  qtreader_next_record slack s b = ROk ((r, s'), b') ->
  exists pre, b = pre ++ b' /\ 6 <= length pre.
Proof.
  intros slack s b r s' b' E. unfold qtreader_next_record in E.
  destruct (skip_headers _ _ _ _) as [[s1 b1]| |] eqn:H; try discriminate.
  destruct (cons_skip_headers _ _ _ _ _ _ H) as (p1 & ->).
  destruct (cons_parse_record _ _ _ _ E) as (p2 & -> & L).
  exists (p1 ++ p2). rewrite app_assoc, app_length. split; auto; lia.
Qed.

(** ** Fuel is never exhausted *)
Lemma skip_headers_fuel : forall f1 f2 slack s b,
  length b < f1 -> length b < f2 ->
  skip_headers f1 slack s b = skip_headers f2 slack s b.
Proof.
  induction f1; intros f2 slack s b H1 H2; [lia|].
  destruct f2; [lia|]. cbn [skip_headers].
  destruct (peek32 slack b); auto. destruct (_ && _); auto.
  destruct (parse_header s b) as [[s1 b1]| |] eqn:H; auto.
  destruct (cons_parse_header _ _ _ _ H) as (p1 & -> & L).
  rewrite app_length in H1, H2. apply IHf1; lia.
Qed.

(** Which faults a parser can produce. *)
Definition only_faults {A} (Q : rfault -> Prop) (p : P A) : Prop :=
  forall b f, p b = RFault f -> Q f.

Lemma of_bind : forall A B Q (p : P A) (f : A -> P B),
  only_faults Q p -> (forall a, only_faults Q (f a)) -> only_faults Q (bind p f).
Proof.
  intros A B Q p f Hp Hf b e E. unfold bind in E.
  destruct (p b) as [[a b1]| |] eqn:Hb; try discriminate; [eapply Hf; eauto|].
  injection E as <-. eapply Hp; eauto.
Qed.
Lemma of_ret : forall A Q (a : A), only_faults Q (ret a).
Proof. intros A Q a b f E; discriminate. Qed.
Lemma of_err : forall A Q, only_faults Q (@err A).
Proof. intros A Q b f E; discriminate. Qed.
Lemma of_fault : forall A (Q : rfault -> Prop) f, Q f -> only_faults Q (@fault A f).
Proof. intros A Q f H b e E. injection E as <-. auto. Qed.
Lemma of_guard : forall Q c, only_faults Q (guard c).
Proof. intros Q [] b f E; discriminate. Qed.
Lemma of_get : forall Q n, only_faults Q (get n).
Proof. intros Q n b f E. unfold get in E. destruct (_ <? _); discriminate. Qed.
Lemma of_skip : forall Q n, only_faults Q (skip n).
Proof. intros Q n b f E. unfold skip in E. destruct (_ <? _); discriminate. Qed.
Lemma of_opt : forall A Q c (p : P A) d, only_faults Q p -> only_faults Q (opt c p d).
Proof. intros A Q [] p d H; [exact H|apply of_ret]. Qed.
Lemma of_get_count : forall Q hm gm k, only_faults Q (get_count hm gm k).
Proof.
  intros Q hm gm k b f E. unfold get_count in E.
  destruct (_ && _); [destruct b|destruct (_ =? _)%N]; discriminate.
Qed.

Ltac of_tac :=
  repeat (match goal with
  | |- forall _, _ => intro
  | |- only_faults _ (bind _ _) => apply of_bind
  | |- only_faults _ (get _) => apply of_get
  | |- only_faults _ get8 => apply of_get
  | |- only_faults _ get16 => apply of_get
  | |- only_faults _ get32 => apply of_get
  | |- only_faults _ get64 => apply of_get
  | |- only_faults _ (skip _) => apply of_skip
  | |- only_faults _ (ret _) => apply of_ret
  | |- only_faults _ err => apply of_err
  | |- only_faults _ (guard _) => apply of_guard
  | |- only_faults _ (opt _ _ _) => apply of_opt
  | |- only_faults _ (get_count _ _ _) => apply of_get_count
  | |- only_faults _ (if ?c then _ else _) => destruct c
  | |- only_faults _ (match ?c with _ => _ end) => destruct c
  end).

Lemma of_read_arr : forall (Q : rfault -> Prop) n cap, Q FArray -> only_faults Q (read_arr n cap).
Proof. induction n; intros cap H; cbn [read_arr]; of_tac; auto using of_fault. Qed.
Lemma of_read_rows : forall (Q : rfault -> Prop) w nr rc cc, Q FArray -> only_faults Q (read_rows w nr rc cc).
Proof. induction w; intros; cbn [read_rows]; of_tac; auto using of_read_arr. Qed.
Lemma of_read_regs : forall (Q : rfault -> Prop) n cap g, Q FArray -> only_faults Q g -> only_faults Q (read_regs n cap g).
Proof. induction n; intros cap g H Hg; cbn [read_regs]; of_tac; auto using of_fault. Qed.
Lemma of_parse_walk : forall (Q : rfault -> Prop) hm gm st old, Q FArray -> only_faults Q (parse_walk hm gm st old).
Proof. intros; unfold parse_walk; of_tac; auto using of_read_arr, of_read_rows. Qed.
Lemma of_do_parse_regs : forall (Q : rfault -> Prop) v, Q FArray -> only_faults Q (do_parse_regs v).
Proof. intros; unfold do_parse_regs; of_tac; apply of_read_regs; auto; of_tac. Qed.
Lemma of_ra_res : forall (Q : rfault -> Prop) v r pv p e, Q FShift -> only_faults Q (ra_res v r pv p e).
Proof. intros; unfold ra_res; of_tac; auto using of_fault. Qed.
Lemma of_parse_term : forall Q, only_faults Q parse_term.
Proof. intros; unfold parse_term; of_tac. Qed.
Lemma of_parse_header : forall (Q : rfault -> Prop) s, Q FArray -> only_faults Q (parse_header s).
Proof. intros; unfold parse_header; of_tac; auto using of_parse_walk. Qed.
Lemma of_parse_core : forall (Q : rfault -> Prop) s, Q FArray -> Q FShift -> only_faults Q (parse_core s).
Proof.
  intros; unfold parse_core; of_tac;
    auto using of_parse_walk, of_parse_term, of_do_parse_regs, of_ra_res.
Qed.

Lemma annotate_branch_fault : forall insn c f, annotate_branch insn c = RFault f -> f = FAssert.
Proof.
  intros insn c f. unfold annotate_branch, assert_. intros E.
  repeat match type of E with
  | (if ?c then _ else _) = _ => destruct c
  end; try discriminate; now injection E.
Qed.
Lemma annotate_tlbie_fault : forall l insn g f, annotate_tlbie l insn g = RFault f -> False.
Proof.
  intros l insn g f. unfold annotate_tlbie. intros E.
  repeat match type of E with
  | (if ?c then _ else _) = _ => destruct c
  | match ?c with _ => _ end = _ => destruct c
  end; discriminate.
Qed.
Lemma annotate_fault : forall s r f, annotate s r = RFault f -> f = FAssert.
Proof.
  intros s r f. unfold annotate. intros E.
  destruct (q_branch (o_q r) && r_branch_info s);
    [destruct (annotate_branch _ _) as [[d bt]| |] eqn:H1; try discriminate|].
  - destruct (r_tlbie_info s); [|discriminate].
    destruct (annotate_tlbie _ _ _) eqn:H2; try discriminate.
    apply annotate_tlbie_fault in H2. contradiction.
  - injection E as <-. now apply annotate_branch_fault in H1.
  - destruct (r_tlbie_info s); [|discriminate].
    destruct (annotate_tlbie _ _ _) eqn:H2; try discriminate.
    apply annotate_tlbie_fault in H2. contradiction.
Qed.

Definition soft (f : rfault) : Prop := f = FArray \/ f = FShift \/ f = FAssert.

Lemma parse_record_fault : forall s b f, parse_record s b = RFault f -> soft f.
Proof.
  intros s b f E. unfold parse_record, bind in E.
  destruct (parse_core s b) as [[[r s'] b1]| |] eqn:H; try discriminate.
  - cbn [fst lift] in E. destruct (annotate s r) eqn:HA; try discriminate.
    injection E as <-. apply annotate_fault in HA. unfold soft; auto.
  - injection E as <-. apply (of_parse_core soft) in H; unfold soft; auto.
Qed.

Lemma skip_headers_fault : forall fuel slack s b f,
  length b < fuel -> skip_headers fuel slack s b = RFault f ->
  f = FArray \/ (f = FPeek /\ length slack < 4).
Proof.
  induction fuel; intros slack s b f HL E; [lia|]. cbn [skip_headers] in E.
  destruct (peek32 slack b) eqn:HP.
  - destruct (_ && _); [|discriminate].
    destruct (parse_header s b) as [[s1 b1]| |] eqn:H; try discriminate.
    + destruct (cons_parse_header _ _ _ _ H) as (p1 & -> & L). rewrite app_length in HL.
      eapply IHfuel; [|eauto]. lia.
    + injection E as <-. left. eapply (of_parse_header (fun f => f = FArray)); eauto.
  - injection E as <-. right; split; auto. unfold peek32 in HP.
    destruct (Nat.eqb _ 4) eqn:L; [discriminate|]. apply Nat.eqb_neq in L.
    rewrite firstn_length, app_length in L. lia.
Qed.

Lemma next_record_fault : forall slack s b f,
  qtreader_next_record slack s b = RFault f ->
  soft f \/ (f = FPeek /\ length slack < 4).
Proof.
  intros slack s b f E. unfold qtreader_next_record in E.
  destruct (skip_headers _ _ _ _) as [[s1 b1]| |] eqn:H; try discriminate.
  - left. eapply parse_record_fault; eauto.
  - injection E as <-. apply skip_headers_fault in H; [|lia].
    destruct H as [->|[-> ?]]; unfold soft; auto.
Qed.

Lemma read_loop_fuel : forall f1 f2 slack s b,
  length b < f1 -> length b < f2 -> read_loop f1 slack s b = read_loop f2 slack s b.
Proof.
  induction f1; intros f2 slack s b H1 H2; [lia|]. destruct f2; [lia|]. cbn [read_loop].
  destruct (qtreader_next_record slack s b) as [[[r s'] b']| |] eqn:E; auto.
  apply next_record_progress in E as (pre & -> & L). rewrite app_length in H1, H2.
  rewrite (IHf1 f2) by lia. reflexivity.
Qed.

Lemma read_loop_len : forall f slack s b l e,
  read_loop f slack s b = (l, e) -> 6 * length l <= length b.
Proof.
  induction f; intros slack s b l e E; cbn [read_loop] in E.
  - injection E as <- <-. cbn; lia.
  - destruct (qtreader_next_record slack s b) as [[[r s'] b']| |] eqn:H;
      try (injection E as <- <-; cbn; lia).
    destruct (read_loop f slack s' b') as [l' e'] eqn:H'. injection E as <- <-.
    apply next_record_progress in H as (pre & -> & L). apply IHf in H'.
    rewrite app_length. cbn [length]. lia.
Qed.

Lemma read_loop_end : forall f slack s b l e,
  length b < f -> read_loop f slack s b = (l, EndFault e) ->
  soft e \/ (e = FPeek /\ length slack < 4).
Proof.
  induction f; intros slack s b l e HL E; [lia|]. cbn [read_loop] in E.
  destruct (qtreader_next_record slack s b) as [[[r s'] b']| |] eqn:H.
  - destruct (read_loop f slack s' b') as [l' e'] eqn:H'. injection E as <- ->.
    apply next_record_progress in H as (pre & -> & L). rewrite app_length in HL.
    eapply IHf; [|eauto]. lia.
  - discriminate.
  - injection E as <- <-. eapply next_record_fault; eauto.
Qed.

Lemma read_trace_end : forall br tl slack b l e,
  read_trace br tl slack b = (l, EndFault e) -> soft e \/ (e = FPeek /\ length slack < 4).
Proof.
  intros br tl slack b l e E. unfold read_trace, qtreader_initialize in E.
  destruct (parse_header init_state b) as [[s b']| |] eqn:H; try discriminate.
  - eapply read_loop_end; [|eauto]. lia.
  - injection E as <- <-. left. apply (of_parse_header soft) in H; unfold soft; auto.
Qed.

Lemma read_trace_len : forall br tl slack b,
  fst (read_trace br tl slack b) = [] \/
  6 * length (fst (read_trace br tl slack b)) + 10 <= length b.
Proof.
  intros br tl slack b. unfold read_trace, qtreader_initialize.
  destruct (parse_header init_state b) as [[s b']| |] eqn:H; try (left; reflexivity).
  right. destruct (read_loop _ _ _ _) as [l e] eqn:E. cbn [fst].
  apply read_loop_len in E. destruct (cons_parse_header _ _ _ _ H) as (p & -> & L).
  rewrite app_length. lia.
Qed.

(** ** Appending bytes does not change what was already read *)
Definition stable {A} (p : P A) : Prop :=
  forall b a b' t, p b = ROk (a, b') -> p (b ++ t) = ROk (a, b' ++ t).
Definition wstable {A} (p : P A) : Prop :=
  forall b a b', p b = ROk (a, b') -> b' = [] \/ forall t, p (b ++ t) = ROk (a, b' ++ t).

Lemma st_bind : forall A B (p : P A) (f : A -> P B),
  stable p -> (forall a, stable (f a)) -> stable (bind p f).
Proof.
  intros A B p f Hp Hf b c b' t E. apply bind_inv in E as (a & b1 & E1 & E2).
  unfold bind. rewrite (Hp _ _ _ t E1). now apply Hf.
Qed.
Lemma st_bind_w : forall A B (p : P A) (f : A -> P B),
  wstable p -> (forall a x, f a [] <> ROk x) -> (forall a, stable (f a)) -> stable (bind p f).
Proof.
  intros A B p f Hp Hn Hf b c b' t E. apply bind_inv in E as (a & b1 & E1 & E2).
  unfold bind. destruct (Hp _ _ _ E1) as [->|H]; [exfalso; eapply Hn; eauto|].
  rewrite H. now apply Hf.
Qed.
Lemma st_ret : forall A (a : A), stable (ret a).
Proof. intros A a b x b' t E. injection E as <- <-. reflexivity. Qed.
Lemma st_err : forall A, stable (@err A).
Proof. intros A b x b' t E. discriminate. Qed.
Lemma st_fault : forall A f, stable (@fault A f).
Proof. intros A f b x b' t E. discriminate. Qed.
Lemma st_guard : forall c, stable (guard c).
Proof. intros []; [apply st_ret|apply st_err]. Qed.
Lemma st_get : forall n, stable (get n).
Proof.
  intros n b x b' t E. unfold get in *. rewrite app_length.
  destruct (length b <? n) eqn:L; [discriminate|]. apply Nat.ltb_ge in L.
  replace (length b + length t <? n) with false by (symmetry; apply Nat.ltb_ge; lia).
  injection E as <- <-. rewrite firstn_app, skipn_app.
  replace (n - length b) with 0 by lia. cbn [firstn skipn]. now rewrite app_nil_r.
Qed.
Lemma st_skip : forall n, stable (skip n).
Proof.
  intros n b x b' t E. unfold skip in *. rewrite app_length.
  destruct (length b <? n) eqn:L; [discriminate|]. apply Nat.ltb_ge in L.
  replace (length b + length t <? n) with false by (symmetry; apply Nat.ltb_ge; lia).
  injection E as <- <-. rewrite skipn_app.
  replace (n - length b) with 0 by lia. reflexivity.
Qed.
Lemma st_opt : forall A c (p : P A) d, stable p -> stable (opt c p d).
Proof. intros A [] p d H; [exact H|apply st_ret]. Qed.
Lemma st_lift : forall A (r : res A), stable (lift r).
Proof. intros A [x| |] b a b' t E; cbn in *; try discriminate. now injection E as <- <-. Qed.

Ltac st_tac :=
  repeat (match goal with
  | |- forall _, _ => intro
  | |- stable (bind _ _) => apply st_bind
  | |- stable (get _) => apply st_get
  | |- stable get8 => apply st_get
  | |- stable get16 => apply st_get
  | |- stable get32 => apply st_get
  | |- stable get64 => apply st_get
  | |- stable (skip _) => apply st_skip
  | |- stable (ret _) => apply st_ret
  | |- stable err => apply st_err
  | |- stable (fault _) => apply st_fault
  | |- stable (lift _) => apply st_lift
  | |- stable (guard _) => apply st_guard
  | |- stable (opt _ _ _) => apply st_opt
  | |- stable (if ?c then _ else _) => destruct c
  | |- stable (match ?c with _ => _ end) => destruct c
  end).

Lemma st_read_arr : forall n cap, stable (read_arr n cap).
Proof. induction n; intros cap; cbn [read_arr]; st_tac. apply IHn. Qed.
Lemma st_read_rows : forall w nr rc cc, stable (read_rows w nr rc cc).
Proof. induction w; intros; cbn [read_rows]; st_tac; auto using st_read_arr. Qed.
Lemma st_read_regs : forall n cap g, stable g -> stable (read_regs n cap g).
Proof. induction n; intros cap g Hg; cbn [read_regs]; st_tac; auto. Qed.
Lemma st_do_parse_regs : forall v, stable (do_parse_regs v).
Proof. intros; unfold do_parse_regs; st_tac; apply st_read_regs; st_tac. Qed.
Lemma st_parse_term : stable parse_term.
Proof. unfold parse_term; st_tac. Qed.
Lemma st_ra_res : forall v r pv p e, stable (ra_res v r pv p e).
Proof. intros; unfold ra_res; st_tac. Qed.

Lemma wst_get_count : forall hm gm k, wstable (get_count hm gm k).
Proof.
  intros hm gm k b a b' E. unfold get_count in *.
  destruct (_ && _); [destruct b|destruct (_ =? _)%N]; injection E as <- <-; auto.
Qed.
Lemma wst_bind : forall A B (p : P A) (f : A -> P B),
  wstable p -> (forall a x b', f a [] = ROk (x, b') -> b' = []) ->
  (forall a, wstable (f a)) -> wstable (bind p f).
Proof.
  intros A B p f Hp Hn Hf b c b' E. apply bind_inv in E as (a & b1 & E1 & E2).
  destruct (Hp _ _ _ E1) as [->|H]; [left; eapply Hn; eauto|].
  destruct (Hf _ _ _ _ E2) as [->|H2]; [now left|right].
  intro t. unfold bind. rewrite H. apply H2.
Qed.
Lemma wst_stable : forall A (p : P A), stable p -> wstable p.
Proof. intros A p H b a b' E. right. intro t. now apply H. Qed.

(** Every successful parse of nothing leaves nothing. *)
Lemma cons_nil : forall A (p : P A) x b', cons_at_least 0 p -> p [] = ROk (x, b') -> b' = [].
Proof.
  intros A p x b' H E. destruct (H _ _ _ E) as (pre & Hp & _).
  destruct pre; cbn in Hp; [auto|discriminate].
Qed.

Lemma wst_parse_walk : forall hm gm st old, wstable (parse_walk hm gm st old).
Proof.
  intros. unfold parse_walk.
  apply wst_bind; [apply wst_get_count| |].
  - intros a x b' E. eapply cons_nil; [|exact E]. cons0; auto using cons_read_arr, cons_read_rows.
  - intro nr. apply wst_bind; [apply wst_get_count| |].
    + intros a x b' E. eapply cons_nil; [|exact E]. cons0; auto using cons_read_arr, cons_read_rows.
    + intro w. apply wst_stable. st_tac; auto using st_read_arr, st_read_rows.
Qed.

Lemma get_nil : forall A n (f : N -> P A) x, 0 < n -> bind (get n) f [] <> ROk x.
Proof. intros A n f x H E. unfold bind, get in E. cbn in E. destruct n; [lia|discriminate]. Qed.

Ltac st_until :=
  repeat (match goal with
  | |- stable (bind (opt _ (parse_walk _ _ _ _) _) _) => fail 1
  | |- stable (bind _ _) =>
      apply st_bind; [st_tac; auto using st_ra_res, st_parse_term, st_do_parse_regs|intro]
  end).
Lemma wst_opt_walk : forall c hm gm st old d, wstable (opt c (parse_walk hm gm st old) d).
Proof.
  intros [] *; cbn [opt]; [apply wst_parse_walk|apply wst_stable, st_ret].
Qed.

Lemma st_parse_header : forall s, stable (parse_header s).
Proof.
  intros s. unfold parse_header. st_until.
  destruct (has _ HDR_IAR_RPN); cbn [andb].
  - apply st_bind_w; [apply wst_opt_walk| |].
    + intros. apply get_nil. lia.
    + st_tac.
  - cbn [opt]. st_tac.
Qed.

Lemma st_parse_core : forall s, stable (parse_core s).
Proof.
  intros s. unfold parse_core. cbv zeta. st_until.
  match goal with |- stable (bind (opt (?c && ?d) _ _) _) => destruct c end; cbn [andb];
    [apply st_bind_w; [apply wst_opt_walk|intros; apply get_nil; lia|intro]
    |cbn [opt]; apply st_bind; [st_tac|intro]];
  st_until;
  (match goal with |- stable (bind (opt (?c && ?d) _ _) _) => destruct c end; cbn [andb];
    [apply st_bind_w; [apply wst_opt_walk|intros; apply get_nil; lia|intro]
    |cbn [opt]; apply st_bind; [st_tac|intro]]);
  st_tac; auto using st_do_parse_regs, st_ra_res.
Qed.

Lemma st_parse_record : forall s, stable (parse_record s).
Proof. intros s. unfold parse_record. apply st_bind; [apply st_parse_core|]. st_tac. Qed.

Lemma peek32_app : forall slack1 slack2 b t, 4 <= length b ->
  peek32 slack1 (b ++ t) = peek32 slack2 b.
Proof.
  intros. unfold peek32. rewrite <- app_assoc, !firstn_app.
  replace (4 - length b) with 0 by lia. cbn [firstn]. reflexivity.
Qed.

Lemma st_skip_headers : forall f1 f2 slack1 slack2 s b s' b' t,
  skip_headers f1 slack1 s b = ROk (s', b') -> 4 <= length b' ->
  length (b ++ t) < f2 ->
  skip_headers f2 slack2 s (b ++ t) = ROk (s', b' ++ t).
Proof.
  induction f1; intros f2 slack1 slack2 s b s' b' t E L F; (destruct f2; [lia|]).
  - destruct (cons_skip_headers _ _ _ _ _ _ E) as (pre & Hb).
    cbn [skip_headers] in *.
    rewrite (peek32_app slack2 slack1) by (subst b; rewrite app_length; lia).
    destruct (peek32 slack1 b); [|discriminate]. destruct (_ && _); [discriminate|].
    now injection E as <- <-.
  - destruct (cons_skip_headers _ _ _ _ _ _ E) as (pre & Hb).
    cbn [skip_headers] in *.
    rewrite (peek32_app slack2 slack1) by (subst b; rewrite app_length; lia).
    destruct (peek32 slack1 b); [|discriminate].
    destruct (_ && _); [|now injection E as <- <-].
    destruct (parse_header s b) as [[s1 b1]| |] eqn:H; try discriminate.
    rewrite (st_parse_header _ _ _ _ t H).
    destruct (cons_parse_header _ _ _ _ H) as (p1 & Hb1 & L1).
    apply (IHf1 _ slack1); auto. rewrite Hb1 in F. rewrite !app_length in *. lia.
Qed.

Lemma next_record_stable : forall slack1 slack2 s b r s' b' t,
  qtreader_next_record slack1 s b = ROk ((r, s'), b') ->
  qtreader_next_record slack2 s (b ++ t) = ROk ((r, s'), b' ++ t).
Proof.
  intros slack1 slack2 s b r s' b' t E. unfold qtreader_next_record in *.
  destruct (skip_headers _ _ s b) as [[s1 b1]| |] eqn:H; try discriminate.
  erewrite st_skip_headers; [|exact H| |lia].
  - now apply st_parse_record.
  - destruct (cons_parse_record _ _ _ _ E) as (p & -> & L). rewrite app_length. lia.
Qed.

Lemma read_loop_prefix : forall f1 f2 slack1 slack2 s b t,
  length (b ++ t) < f2 ->
  exists l, fst (read_loop f2 slack2 s (b ++ t)) = fst (read_loop f1 slack1 s b) ++ l.
Proof.
  induction f1; intros f2 slack1 slack2 s b t F; [cbn [read_loop fst app]; eauto|].
  destruct f2; [lia|]. cbn [read_loop].
  destruct (qtreader_next_record slack1 s b) as [[[r s'] b']| |] eqn:E;
    cbn [fst app]; eauto.
  rewrite (next_record_stable _ slack2 _ _ _ _ _ t E).
  apply next_record_progress in E as (pre & -> & L).
  destruct (IHf1 f2 slack1 slack2 s' b' t) as (l & Hl).
  { rewrite !app_length in *. lia. }
  destruct (read_loop f2 slack2 s' (b' ++ t)), (read_loop f1 slack1 s' b').
  cbn [fst app] in *. exists l. now rewrite Hl.
Qed.

Lemma read_trace_prefix : forall br tl slack1 slack2 b t,
  exists l, fst (read_trace br tl slack2 (b ++ t)) = fst (read_trace br tl slack1 b) ++ l.
Proof.
  intros. unfold read_trace, qtreader_initialize.
  destruct (parse_header init_state b) as [[s b']| |] eqn:H; cbn [fst app]; eauto.
  rewrite (st_parse_header _ _ _ _ t H). apply read_loop_prefix. lia.
Qed.
