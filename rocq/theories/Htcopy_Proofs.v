(** The hash table: copies, clearing, walking back. *)
Require Import NArith ZArith List Bool Lia Permutation.
Require Import ZifyBool ZifyN ZifyNat.
Require Import Verif.Word Verif.Htable_Model Verif.Htable_Spec Verif.Htable_Proofs Verif.Htable_Proofs2 Verif.Htable_Proofs3 Verif.Htcopy_Model.
Import ListNotations.
Local Open Scope N_scope.

(** ** The copy of a table that was never used *)
Definition copy0 : ht := mk_ht 0 0 0 0 0 ones64 0 0 false [0].
Lemma find_copy0 : forall hash cmp, find_val copy0 hash cmp = HtOk None.
Proof.
  intros. unfold find_val, firstval, val, fuel_of, bucket.
  rewrite mask_mod. replace (hash mod size copy0) with 0; [reflexivity|].
  change (size copy0) with 1. now rewrite N.mod_1_r.
Qed.
Lemma shows_copy0 rehash : shows rehash copy0 [].
Proof.
  split; [reflexivity|]. split; [exists []; split; [reflexivity|constructor]|]. intros hash cmp. exists None.
  unfold ht_get. rewrite find_copy0. split; [reflexivity|]. intros p I. destruct I.
Qed.
Lemma op_copy0 rehash o : (run_op rehash o copy0 = run_op rehash o ht_init)
  \/ exists r, run_op rehash o copy0 = HtOk (copy0, r) /\ run_op rehash o ht_init = HtOk (ht_init, r).
Proof.
  destruct o as [[] p|p]; cbn [run_op].
  - left. reflexivity.
  - right. exists false. split; reflexivity.
  - right. exists false. unfold ht_del. rewrite find_copy0, find_init. split; reflexivity.
Qed.
Lemma ops_copy0 rehash : forall os h rs, run_ops rehash os ht_init = HtOk (h, rs) ->
  run_ops rehash os copy0 = HtOk (h, rs) \/ (h = ht_init /\ run_ops rehash os copy0 = HtOk (copy0, rs)).
Proof.
  induction os as [|o os IH]; intros h rs E; cbn [run_ops] in *.
  - injection E as <- <-. right. split; reflexivity.
  - destruct (op_copy0 rehash o) as [->|(r & -> & Q)]; [left; exact E|]. rewrite Q in E.
    destruct (run_ops rehash os ht_init) as [[h1 rs1]|]; [|discriminate]. injection E as -> <-.
    destruct (IH h rs1 eq_refl) as [->|[-> ->]]; auto.
Qed.

Lemma copy_inv t rehash h els : inv t rehash h els -> ht_copy true h = HtOk (Some h).
Proof.
  intros V. destruct (in_core _ _ _ _ V) as [I L _ _ _ _ _ _]. unfold ht_copy, slots. cbn [negb]. rewrite I.
  unfold len in L. replace (N.of_nat (length (h_table h)) <? size h) with false by lia.
  rewrite firstn_all2 by lia. destruct h; cbn in *; subst; reflexivity.
Qed.

Theorem copied : forall rehash t os os2 h0, 1 <= t <= 63 ->
  (h0 = ht_init \/ exists expect, h0 = fst (ht_init_sized true expect)) ->
  Forall (fun o => top_is t (op_ptr o)) (os ++ os2) -> N.of_nat (length (os ++ os2)) <= 805306368 ->
  exists h rs c d, run_ops rehash os h0 = HtOk (h, rs) /\ explains os rs [] c /\
    ht_copy true h = HtOk (Some d) /\ shows rehash d c /\
    exists h' d' rs2 c', run_ops rehash os2 h = HtOk (h', rs2) /\ run_ops rehash os2 d = HtOk (d', rs2) /\
      explains os2 rs2 c c' /\ shows rehash h' c' /\ shows rehash d' c'.
Proof.
  intros rehash t os os2 h0 [T1 T2] H0 F L. apply Forall_app in F as [F1 F2]. rewrite app_length in L.
  assert (Z : state_ok t rehash h0 []).
  { destruct H0 as [-> |(expect & ->)]; [left; auto|now apply sized_ok]. }
  destruct (run_ok t T1 rehash os h0 [] T2 Z F1) as (h & rs & c & E1 & E2 & E3); [cbn [length]; lia|].
  assert (B : N.of_nat (length c) <= N.of_nat (length os)).
  { assert (G : forall os rs c c', explains os rs c c' -> (length c' <= length c + length os)%nat).
    { clear. intros os rs c c' X. induction X; cbn [length] in *; try lia. apply Permutation_length in H. cbn [length] in H. lia. }
    specialize (G _ _ _ _ E2). cbn [length] in G. lia. }
  destruct (run_ok t T1 rehash os2 h c T2 E3 F2) as (h' & rs2 & c' & E4 & E5 & E6); [lia|].
  pose proof (shows_ok t T1 rehash h c E3) as S1. pose proof (shows_ok t T1 rehash h' c' E6) as S2.
  destruct E3 as [[-> ->]|V].
  - exists ht_init, rs, [], copy0. split; [exact E1|]. split; [exact E2|]. split; [reflexivity|]. split; [apply shows_copy0|].
    destruct (ops_copy0 rehash os2 h' rs2 E4) as [Q|[-> Q]].
    + exists h', h', rs2, c'. auto.
    + exists ht_init, copy0, rs2, c'. split; [exact E4|]. split; [exact Q|]. split; [exact E5|]. split; [exact S2|].
      destruct S2 as (A & _). cbn in A. destruct c'; [apply shows_copy0|discriminate].
  - exists h, rs, c, h. split; [exact E1|]. split; [exact E2|]. split; [exact (copy_inv _ _ _ _ V)|]. split; [exact S1|].
    exists h', h', rs2, c'. auto.
Qed.
Theorem cleared : forall rehash t os h, 1 <= t <= 63 ->
  Forall (fun o => top_is t (op_ptr o)) os -> N.of_nat (length os) <= 805306368 ->
  shows rehash (ht_clear h) [] /\
  exists h' rs c, run_ops rehash os (ht_clear h) = HtOk (h', rs) /\ explains os rs [] c /\ shows rehash h' c.
Proof.
  intros rehash t os h T F L. split.
  - apply (shows_ok t (proj1 T) rehash). left. split; reflexivity.
  - exact (history rehash t os ht_init T (or_introl eq_refl) F L).
Qed.

(** ** Walking back *)
Section WALK.
Variable h : ht.
Definition at_ (i : N) : N := match load h i with HtOk e => e | HtErr _ => 0 end.
Definition one (i : N) : list N := if valid (at_ i) then [raw h (at_ i)] else [].
Fixpoint vals (n : nat) (i : N) : list N := match n with O => [] | S n' => one i ++ vals n' (i + 1) end.
Definition before (i : N) : list N := vals (N.to_nat i) 0.
Lemma vals_snoc : forall n i, vals (S n) i = vals n i ++ one (i + N.of_nat n).
Proof.
  induction n as [|n IH]; intros i; [cbn; rewrite app_nil_r, N.add_0_r; reflexivity|].
  change (vals (S (S n)) i) with (one i ++ vals (S n) (i + 1)). rewrite IH. cbn [vals]. rewrite <- app_assoc. f_equal. f_equal. f_equal. lia.
Qed.
Lemma before_S i : before (i + 1) = before i ++ one i.
Proof. unfold before. replace (N.to_nat (i + 1)) with (S (N.to_nat i)) by lia. rewrite vals_snoc. f_equal. f_equal. lia. Qed.

Lemma iter_vals : forall fuel i l, iter_loop fuel h i = HtOk l ->
  l = vals (N.to_nat (size h - i)) i /\ forall j, i <= j -> j < size h -> load h j = HtOk (at_ j).
Proof.
  induction fuel as [|fuel IH]; intros i l E; cbn [iter_loop] in E; destruct (i <? size h) eqn:B; try discriminate.
  - injection E as <-. replace (N.to_nat (size h - i)) with 0%nat by lia. split; [reflexivity|]. intros; lia.
  - destruct (load h i) as [e|] eqn:L; [|discriminate]. cbn [ht_bind] in E.
    destruct (iter_loop fuel h (i + 1)) as [r|] eqn:Q; [|discriminate]. cbn [ht_bind] in E. injection E as <-.
    apply IH in Q as [-> Q]. assert (A : at_ i = e) by (unfold at_; rewrite L; reflexivity). split.
    + replace (N.to_nat (size h - i)) with (S (N.to_nat (size h - (i + 1)))) by lia. cbn [vals]. unfold one. rewrite A.
      destruct (valid e); reflexivity.
    + intros j J1 J2. destruct (N.eq_dec j i) as [->|D]; [rewrite A; exact L|apply Q; lia].
  - injection E as <-. replace (N.to_nat (size h - i)) with 0%nat by lia. split; [reflexivity|]. intros; lia.
Qed.

Variable l : list N.
Hypothesis Hl : iterate h = HtOk l.
Lemma l_vals : l = before (size h).
Proof. destruct (iter_vals _ _ _ Hl) as [E _]. rewrite N.sub_0_r in E. exact E. Qed.
Lemma l_load j : j < size h -> load h j = HtOk (at_ j).
Proof. intros B. destruct (iter_vals _ _ _ Hl) as [_ E]. apply E; lia. Qed.
Lemma vals_app : forall n k i, vals (n + k) i = vals n i ++ vals k (i + N.of_nat n).
Proof.
  induction n as [|n IH]; intros k i; [cbn; rewrite N.add_0_r; reflexivity|]. cbn [vals Nat.add]. rewrite IH, <- app_assoc. f_equal. f_equal. f_equal. lia.
Qed.
Lemma l_split i : i <= size h -> l = before i ++ vals (N.to_nat (size h - i)) i.
Proof.
  intros B. rewrite l_vals. unfold before. replace (N.to_nat (size h)) with (N.to_nat i + N.to_nat (size h - i))%nat by lia.
  rewrite vals_app. f_equal. f_equal. lia.
Qed.
Lemma up_ok : forall fuel i, i <= size h -> (N.to_nat (size h - i) <= fuel)%nat ->
  exists o, up fuel h i = HtOk (o, nth_error l (length (before i))) /\ before o = before i /\ o <= size h /\
    (o < size h -> valid (at_ o) = true /\ (length (before i) < length l)%nat) /\ (o = size h -> l = before i).
Proof.
  induction fuel as [|fuel IH]; intros i B F; cbn [up]; destruct (i <? size h) eqn:C; try lia.
  - assert (i = size h) by lia. subst i. exists (size h). rewrite <- l_vals. rewrite (proj2 (nth_error_None l (length l))) by lia.
    repeat split; try lia.
  - rewrite l_load by lia. cbn [ht_bind]. destruct (valid (at_ i)) eqn:V.
    + exists i. pose proof (l_split (i + 1) ltac:(lia)) as S1. rewrite before_S in S1. unfold one in S1. rewrite V in S1.
      split.
      * rewrite S1, <- app_assoc, nth_error_app2 by lia. rewrite Nat.sub_diag. reflexivity.
      * split; [reflexivity|]. split; [lia|]. split; [|lia]. intros _. split; [exact V|]. rewrite S1, !app_length. cbn [length]. lia.
    + assert (X : before (i + 1) = before i) by (rewrite before_S; unfold one; rewrite V; apply app_nil_r).
      destruct (IH (i + 1)) as (o & A); [lia|lia|]. rewrite X in A. exists o. exact A.
  - assert (i = size h) by lia. subst i. exists (size h). rewrite <- l_vals. rewrite (proj2 (nth_error_None l (length l))) by lia.
    repeat split; try lia.
Qed.
Lemma down_ok : forall fuel i, i <= size h -> (N.to_nat i <= fuel)%nat ->
  match length (before i) with
  | O => down fuel h i = HtOk (0, None)
  | S c => exists o, down fuel h i = HtOk (o, nth_error l c) /\ o <= size h /\ length (before o) = c
  end.
Proof.
  induction fuel as [|fuel IH]; intros i B F; cbn [down]; destruct (i =? 0) eqn:C; try lia.
  - assert (i = 0) by lia. subst i. reflexivity.
  - assert (i = 0) by lia. subst i. reflexivity.
  - rewrite l_load by lia. cbn [ht_bind]. pose proof (before_S (i - 1)) as S1. replace (i - 1 + 1) with i in S1 by lia. unfold one in S1.
    destruct (valid (at_ (i - 1))) eqn:V.
    + rewrite S1, app_length. cbn [length]. rewrite Nat.add_1_r. exists (i - 1). split; [|split; [lia|reflexivity]].
      rewrite (l_split i) by lia. rewrite S1, <- app_assoc, nth_error_app2 by lia. rewrite Nat.sub_diag. reflexivity.
    + rewrite app_nil_r in S1. rewrite S1. apply IH; lia.
Qed.
(** a valid slot or the end *)
Definition stands (o : N) : Prop := o <= size h /\ (o < size h -> valid (at_ o) = true).
Lemma nexts_ok : forall n o, stands o -> (length (before o) + n <= length l)%nat ->
  exists o', nexts n h o = HtOk (o', map (nth_error l) (seq (S (length (before o))) n)) /\ o' <= size h /\ length (before o') = (length (before o) + n)%nat.
Proof.
  induction n as [|n IH]; intros o [S1 S2] B; cbn [nexts].
  - exists o. rewrite Nat.add_0_r. auto.
  - assert (O : o < size h).
    { destruct (N.eq_dec o (size h)) as [->|]; [|lia]. rewrite <- l_vals in B. lia. }
    assert (X : length (before (o + 1)) = S (length (before o))).
    { rewrite before_S. unfold one. rewrite S2 by exact O. rewrite app_length. cbn. lia. }
    unfold it_next. destruct (up_ok (N.to_nat (size h)) (o + 1)) as (o1 & A1 & A2 & A3 & A4 & A5); [lia|lia|].
    rewrite A1. cbn [ht_bind fst snd]. destruct (IH o1) as (o' & Q1 & Q2 & Q3).
    + split; [exact A3|]. intros Y. apply A4. exact Y.
    + rewrite A2, X. lia.
    + rewrite Q1. cbn [ht_bind fst snd]. exists o'. rewrite A2, X in *. split; [reflexivity|]. split; [exact Q2|]. lia.
Qed.
Theorem forward : forall n, (n <= length l)%nat ->
  exists o, firsts n h = HtOk (o, map (nth_error l) (seq 0 (S n))) /\ o <= size h /\ length (before o) = n.
Proof.
  intros n B. unfold firsts, it_first. destruct (up_ok (N.to_nat (size h)) 0) as (o1 & A1 & A2 & A3 & A4 & A5); [lia|lia|].
  rewrite A1. cbn [ht_bind fst snd]. change (length (before 0)) with 0%nat in *.
  assert (X : length (before o1) = 0%nat) by (rewrite A2; reflexivity).
  destruct (nexts_ok n o1) as (o & Q1 & Q2 & Q3); [split; [exact A3|intros Y; apply A4; exact Y]|lia|].
  rewrite Q1. cbn [ht_bind fst snd]. rewrite X in *. exists o. auto.
Qed.
Lemma prevs_ok : forall j o, o <= size h ->
  exists o', prevs j h o = HtOk (o', map (fun i => if Nat.ltb i (length (before o)) then nth_error l (length (before o) - 1 - i) else None) (seq 0 j)).
Proof.
  induction j as [|j IH]; intros o B; [exists o; reflexivity|]. cbn [prevs]. unfold it_prev.
  pose proof (down_ok (N.to_nat o) o B ltac:(lia)) as D. destruct (length (before o)) as [|c] eqn:C.
  - rewrite D. cbn [ht_bind fst snd]. destruct (IH 0) as (o' & Q); [lia|]. rewrite Q. cbn [ht_bind fst snd]. exists o'.
    cbn [seq map]. f_equal. f_equal. f_equal. rewrite <- seq_shift, map_map. reflexivity.
  - destruct D as (o1 & D1 & D2 & D3). rewrite D1. cbn [ht_bind fst snd]. destruct (IH o1 D2) as (o' & Q). rewrite Q. cbn [ht_bind fst snd].
    exists o'. rewrite D3. cbn [seq map]. f_equal. f_equal. f_equal.
    + replace (S c - 1 - 0)%nat with c by lia. reflexivity.
    + rewrite <- seq_shift, map_map. apply map_ext. intros i.
      replace (S i <? S c)%nat with (i <? c)%nat by reflexivity. destruct (i <? c)%nat eqn:Z; [|reflexivity]. f_equal. lia.
Qed.
End WALK.

Theorem back : forall h l n j, iterate h = HtOk l -> (n <= length l)%nat ->
  exists o o', firsts n h = HtOk (o, map (nth_error l) (seq 0 (S n))) /\
    prevs j h o = HtOk (o', map (fun i => if Nat.ltb i n then nth_error l (n - 1 - i) else None) (seq 0 j)).
Proof.
  intros h l n j E B. destruct (forward h l E n B) as (o & A1 & A2 & A3). destruct (prevs_ok h l E j o A2) as (o' & P).
  exists o, o'. rewrite A3 in P. split; [exact A1|exact P].
Qed.
