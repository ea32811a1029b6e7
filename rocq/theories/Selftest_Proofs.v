(** The product of matrices is associative and has a neutral element; the tests pass. *)
Require Import NArith List Bool Lia.
Require Import Verif.Word Verif.Matrix_Model Verif.Matrix_Spec Verif.Matrix_Proofs Verif.Selftest_Model.
Import ListNotations.
Local Open Scope N_scope.

(** ** Sums *)
Definition M : N := 2 ^ 64.
Lemma M_pos : M <> 0. Proof. discriminate. Qed.
Lemma sum_ext n f g : (forall x, x < N.of_nat n -> f x = g x) -> sum_to n f = sum_to n g.
Proof. induction n as [|n IH]; intros H; [reflexivity|]. cbn [sum_to]. rewrite IH, H; [reflexivity|lia|]. intros x L. apply H. lia. Qed.
Lemma sum_ext_mod n f g : (forall x, x < N.of_nat n -> f x mod M = g x mod M) -> sum_to n f mod M = sum_to n g mod M.
Proof.
  induction n as [|n IH]; intros H; [reflexivity|]. cbn [sum_to]. rewrite N.add_mod by apply M_pos.
  rewrite (IH (fun x L => H x ltac:(lia))), (H (N.of_nat n)) by lia. now rewrite <- N.add_mod by apply M_pos.
Qed.
Lemma sum_add n f g : sum_to n (fun x => f x + g x) = sum_to n f + sum_to n g.
Proof. induction n as [|n IH]; [reflexivity|]. cbn [sum_to]. rewrite IH. lia. Qed.
Lemma sum_scale n k f : sum_to n (fun x => k * f x) = k * sum_to n f.
Proof. induction n as [|n IH]; [cbn; lia|]. cbn [sum_to]. rewrite IH. lia. Qed.
Lemma sum_zero n : sum_to n (fun _ => 0) = 0.
Proof. induction n as [|n IH]; [reflexivity|]. cbn [sum_to]. now rewrite IH. Qed.
Lemma sum_swap n m f : sum_to n (fun x => sum_to m (fun y => f x y)) = sum_to m (fun y => sum_to n (fun x => f x y)).
Proof.
  induction n as [|n IH]; [symmetry; apply sum_zero|]. cbn [sum_to]. rewrite IH, <- sum_add. reflexivity.
Qed.
Lemma sum_pick n k v : k < N.of_nat n -> sum_to n (fun x => if x =? k then v x else 0) = v k.
Proof.
  induction n as [|n IH]; intros H; [lia|]. cbn [sum_to]. destruct (N.eqb_spec (N.of_nat n) k) as [E|E].
  - rewrite (sum_ext n _ (fun _ => 0)), sum_zero; [now rewrite E|]. intros x L. destruct (N.eqb_spec x k); [lia|reflexivity].
  - rewrite IH by lia. lia.
Qed.

Definition unit_ (r c : N) : N := if r =? c then 1 else 0.
Lemma unit_right n f r c : c < n -> product n f unit_ r c = f r c mod M.
Proof.
  intros H. unfold product. f_equal. rewrite (sum_ext _ _ (fun x => if x =? c then f r x else 0)).
  - apply sum_pick. lia.
  - intros x _. unfold unit_. destruct (x =? c); lia.
Qed.
Lemma unit_left n f r c : r < n -> product n unit_ f r c = f r c mod M.
Proof.
  intros H. unfold product. f_equal. rewrite (sum_ext _ _ (fun x => if x =? r then f x c else 0)).
  - apply (sum_pick _ r (fun x => f x c)). lia.
  - intros x _. unfold unit_. rewrite (N.eqb_sym x r). destruct (r =? x); lia.
Qed.
Lemma product_assoc k1 k2 f g h r c : product k2 (product k1 f g) h r c = product k1 f (product k2 g h) r c.
Proof.
  unfold product at 1 3. fold M.
  transitivity (sum_to (N.to_nat k2) (fun y => sum_to (N.to_nat k1) (fun x => f r x * g x y * h y c)) mod M).
  - apply sum_ext_mod. intros y _. unfold product. fold M. rewrite N.mul_mod_idemp_l by apply M_pos. f_equal.
    rewrite N.mul_comm, <- sum_scale. apply sum_ext. intros x _. lia.
  - rewrite sum_swap. apply sum_ext_mod. intros x _. unfold product. fold M. rewrite N.mul_mod_idemp_r by apply M_pos. f_equal.
    rewrite <- sum_scale. apply sum_ext. intros y _. lia.
Qed.
Lemma product_ext k f f' g g' r c : (forall x, x < k -> f r x = f' r x) -> (forall x, x < k -> g x c = g' x c) -> product k f g r c = product k f' g' r c.
Proof. intros A B. unfold product. f_equal. apply sum_ext. intros x L. rewrite A, B by lia. reflexivity. Qed.

(** ** Filling *)
Lemma fill_ok g m rows cols f : holds m rows cols f -> exists m', m_fill g m = MOk m' /\ holds m' rows cols (fun r c => u64 (g r c)).
Proof.
  intros Hm. unfold m_fill. pose proof Hm as (M1 & M2 & _). rewrite M1.
  destruct (for0 (fun i x => holds x rows cols (fun r c => if r <? i then u64 (g r c) else f r c))
    (fun row m => m_for (N.to_nat (m_cols m)) 0 (fun col m => m_set m row col (u64 (g row col))) m) rows m) as (y & E & H).
  - apply (holds_ext _ _ _ f); [|exact Hm]. intros r c _ _. destruct (N.ltb_spec r 0); [lia|reflexivity].
  - intros i x Hi Hx. pose proof Hx as (_ & X2 & _). rewrite X2.
    destruct (for0 (fun j z => holds z rows cols (fun r c => if (r <? i) || ((r =? i) && (c <? j)) then u64 (g r c) else f r c))
      (fun col m => m_set m i col (u64 (g i col))) cols x) as (z & E & H).
    + apply (holds_ext _ _ _ (fun r c => if r <? i then u64 (g r c) else f r c)); [|exact Hx].
      intros r c _ _. destruct (N.ltb_spec c 0); [lia|]. rewrite andb_false_r, orb_false_r. reflexivity.
    + intros j z Hj Hz. destruct (set_ok z rows cols _ i j (u64 (g i j)) Hz Hi Hj) as (w & Ew & Hw). exists w. split; [exact Ew|].
      eapply holds_ext; [|exact Hw]. intros r c _ _. unfold upd. cbn beta.
      destruct (N.ltb_spec r i), (N.eqb_spec r i), (N.ltb_spec c j), (N.ltb_spec c (j + 1)), (N.eqb_spec c j); cbn; try lia; subst; reflexivity.
    + exists z. split; [exact E|]. eapply holds_ext; [|exact H]. intros r c _ Hc. cbn beta.
      destruct (N.ltb_spec r i), (N.eqb_spec r i), (N.ltb_spec c cols), (N.ltb_spec r (i + 1)); cbn; try lia; reflexivity.
  - exists y. split; [exact E|]. eapply holds_ext; [|exact H]. intros r c Hr _. cbn beta. destruct (N.ltb_spec r rows); [reflexivity|lia].
Qed.
Lemma diagonal_ok n m : holds m n n (fun _ _ => 0) ->
  exists m', m_for (N.to_nat n) 0 (fun row i => m_set i row row 1) m = MOk m' /\ holds m' n n unit_.
Proof.
  intros Hm. destruct (for0 (fun i x => holds x n n (fun r c => if (r =? c) && (r <? i) then 1 else 0)) (fun row i => m_set i row row 1) n m) as (y & E & H).
  - eapply holds_ext; [|exact Hm]. intros r c _ _. cbn beta. destruct (N.ltb_spec r 0); [lia|]. now rewrite andb_false_r.
  - intros i x Hi Hx. destruct (set_ok x n n _ i i 1 Hx Hi Hi) as (w & Ew & Hw). exists w. split; [exact Ew|].
    eapply holds_ext; [|exact Hw]. intros r c _ _. unfold upd. cbn beta.
    destruct (N.eqb_spec r i), (N.eqb_spec c i), (N.eqb_spec r c), (N.ltb_spec r i), (N.ltb_spec r (i + 1)); cbn; try lia; reflexivity.
  - exists y. split; [exact E|]. eapply holds_ext; [|exact H]. intros r c Hr _. cbn beta. unfold unit_.
    destruct (N.ltb_spec r n); [|lia]. now rewrite andb_true_r.
Qed.

(** ** Objects *)
Lemma compare_same a b rows cols f g : holds a rows cols f -> holds b rows cols g ->
  (forall r c, r < rows -> c < cols -> f r c = g r c) -> m_compare a b = MOk true.
Proof. intros A B E. destruct (compare_ok a b rows cols f g A B) as (e & C & D). rewrite C. f_equal. now apply D. Qed.
Lemma neutral a i b c n f h h' : holds a n n f -> holds i n n unit_ -> holds b n n h -> holds c n n h' ->
  (forall r c, r < n -> c < n -> f r c < 2 ^ 64) ->
  exists b' c', m_multiply false b a i = MOk (b', true) /\ m_multiply false c i a = MOk (c', true) /\
    m_compare b' a = MOk true /\ m_compare c' a = MOk true /\ m_compare b' c' = MOk true.
Proof.
  intros A I B C W. destruct (multiply_ok b a i n n n f unit_ h A I B) as (b' & E1 & H1).
  destruct (multiply_ok c i a n n n unit_ f h' I A C) as (c' & E2 & H2). exists b', c'. split; [exact E1|]. split; [exact E2|].
  assert (X : forall r c, r < n -> c < n -> product n f unit_ r c = f r c)
    by (intros r x Hr Hc; rewrite unit_right by exact Hc; apply N.mod_small, W; assumption).
  assert (Y : forall r c, r < n -> c < n -> product n unit_ f r c = f r c)
    by (intros r x Hr Hc; rewrite unit_left by exact Hr; apply N.mod_small, W; assumption).
  split; [now apply (compare_same _ _ _ _ _ _ H1 A)|]. split; [now apply (compare_same _ _ _ _ _ _ H2 A)|].
  apply (compare_same _ _ _ _ _ _ H1 H2). intros r x Hr Hc. now rewrite X, Y.
Qed.
Lemma associative a b c r1a r1 r2a r2 n1 n2 n3 n4 f g h : forall h1 h2 h3 h4,
  holds a n1 n2 f -> holds b n2 n3 g -> holds c n3 n4 h ->
  holds r1a n1 n3 h1 -> holds r1 n1 n4 h2 -> holds r2a n2 n4 h3 -> holds r2 n1 n4 h4 ->
  exists x1 x2 y1 y2, m_multiply false r1a a b = MOk (x1, true) /\ m_multiply false r1 x1 c = MOk (x2, true) /\
    m_multiply false r2a b c = MOk (y1, true) /\ m_multiply false r2 a y1 = MOk (y2, true) /\ m_compare x2 y2 = MOk true.
Proof.
  intros h1 h2 h3 h4 A B C R1 R2 R3 R4. destruct (multiply_ok r1a a b _ _ _ _ _ _ A B R1) as (x1 & E1 & H1).
  destruct (multiply_ok r1 x1 c _ _ _ _ _ _ H1 C R2) as (x2 & E2 & H2).
  destruct (multiply_ok r2a b c _ _ _ _ _ _ B C R3) as (y1 & E3 & H3).
  destruct (multiply_ok r2 a y1 _ _ _ _ _ _ A H3 R4) as (y2 & E4 & H4).
  exists x1, x2, y1, y2. repeat (split; [assumption|]). apply (compare_same _ _ _ _ _ _ H2 H4). intros. apply product_assoc.
Qed.

(** ** The tests *)
Lemma u64_bound x : u64 x < 2 ^ 64.
Proof. unfold u64. apply N.mod_lt. discriminate. Qed.
Lemma identity_passes junk n random : n * n < 2 ^ 61 -> identity_multiplication junk n random = MOk true.
Proof.
  intros B. unfold identity_multiplication. destruct (create_ok junk n n B) as (o & E & O). rewrite E. cbn [m_bind].
  destruct (diagonal_ok n o O) as (i & Ei & I). rewrite Ei. cbn [m_bind]. destruct (fill_ok random o n n _ O) as (a & Ea & A). rewrite Ea. cbn [m_bind].
  destruct (neutral a i o o n _ _ _ A I O O) as (b & c & E1 & E2 & _ & _ & E3); [intros; apply u64_bound|].
  rewrite E1. cbn [m_bind snd fst asserted]. rewrite E2. cbn [m_bind snd fst asserted]. rewrite E3. reflexivity.
Qed.
Lemma associative_passes junk n full ra rb rc : n * n < 2 ^ 61 -> associative_multiplication junk n full ra rb rc = MOk true.
Proof.
  intros B. unfold associative_multiplication. destruct (create_ok junk n n B) as (o & E & O). rewrite E. cbn [m_bind].
  destruct (fill_ok ra o n n _ O) as (a & Ea & A). rewrite Ea. cbn [m_bind].
  destruct (fill_ok rb o n n _ O) as (b & Eb & B'). rewrite Eb. cbn [m_bind].
  destruct (fill_ok rc o n n _ O) as (c & Ec & C). rewrite Ec. cbn [m_bind].
  destruct (associative a b c o o o o n n n n _ _ _ _ _ _ _ A B' C O O O O) as (x1 & x2 & y1 & y2 & E1 & E2 & E3 & E4 & E5).
  rewrite E1. cbn [m_bind snd fst asserted]. rewrite E2. cbn [m_bind snd fst asserted]. rewrite E3. cbn [m_bind snd fst asserted].
  rewrite E4. cbn [m_bind snd fst asserted]. destruct full; [exact E5|reflexivity].
Qed.
Lemma main_passes junk rowa cola colb random ra rb rc :
  rowa <> 0 -> cola <> 0 -> cola <> colb -> (rowa + 2000) * (cola + 2000) < 2 ^ 61 -> cola * colb < 2 ^ 61 -> rowa * colb < 2 ^ 61 -> rowa * rowa < 2 ^ 61 ->
  main junk rowa cola colb random ra rb rc = MOk true.
Proof.
  intros R0 C0 D B1 B2 B3 B4. unfold main. assert (B0 : rowa * cola < 2 ^ 61) by nia.
  destruct (create_ok junk rowa cola B0) as (o & E & O). rewrite E. cbn [m_bind].
  destruct (create_ok junk cola colb B2) as (b & Eb & B). rewrite Eb. cbn [m_bind].
  destruct (create_ok junk rowa colb B3) as (c & Ec & C). rewrite Ec. cbn [m_bind].
  destruct (fill_ok (fun row col => N.shiftl row 16 + col) o _ _ _ O) as (a & Ea & A). rewrite Ea. cbn [m_bind].
  destruct (multiply_ok c a b _ _ _ _ _ _ A B C) as (c' & Em & C'). rewrite Em. cbn [m_bind snd fst asserted].
  rewrite (multiply_refuses false c' a a _ _ _ _ _ _ _ _ _ A A C') by (right; intros (_ & _ & X); congruence). cbn [m_bind snd fst asserted negb].
  destruct (copy_ok o a _ _ _ _ O A) as (aa & Ez & AA). rewrite Ez. cbn [m_bind snd fst asserted].
  destruct (resize_ok junk a _ _ _ (rowa + 1000) cola A) as (a1 & E1 & A1); [nia|nia|]. rewrite E1. cbn [m_bind].
  assert (S : forall m r k f, holds m r k f -> shaped m r k = true) by (intros m r k f (X & Y & _); unfold shaped; now rewrite X, Y, !N.eqb_refl).
  rewrite (S _ _ _ _ A1). cbn [asserted].
  destruct (resize_ok junk a1 _ _ _ (rowa + 1000) (cola + 1000) A1) as (a2 & E2 & A2); [nia|lia|]. rewrite E2. cbn [m_bind]. rewrite (S _ _ _ _ A2). cbn [asserted].
  destruct (resize_ok junk a2 _ _ _ (rowa + 2000) (cola + 2000) A2) as (a3 & E3 & A3); [nia|lia|]. rewrite E3. cbn [m_bind]. rewrite (S _ _ _ _ A3). cbn [asserted].
  destruct (resize_ok junk a3 _ _ _ rowa cola A3) as (a4 & E4 & A4); [nia|lia|]. rewrite E4. cbn [m_bind].
  rewrite (compare_same _ _ _ _ _ _ A4 AA).
  - cbn [m_bind asserted]. rewrite (proj1 (copy_refuses a4 c' _ _ _ _ _ _ A4 C' (fun X => D (proj2 X)))). cbn [m_bind snd fst asserted negb].
    rewrite identity_passes by exact B4. cbn [m_bind asserted]. apply associative_passes. exact B4.
  - intros r k Hr Hk. unfold resized.
    repeat match goal with |- context [?x <? ?y] => destruct (N.ltb_spec x y); [|lia] end. reflexivity.
Qed.
