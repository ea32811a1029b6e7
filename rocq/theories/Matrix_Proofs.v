(** Matrices: proofs. *)
Require Import NArith ZArith List Bool Lia.
Require Import ZifyBool ZifyN ZifyNat.
Require Import Verif.Word Verif.Matrix_Model Verif.Matrix_Spec.
Import ListNotations.
Local Open Scope N_scope.

Lemma for_inv : forall {A} (P : N -> A -> Prop) (body : N -> A -> mres A) n from a,
  P from a ->
  (forall i x, from <= i -> i < from + N.of_nat n -> P i x -> exists y, body i x = MOk y /\ P (i + 1) y) ->
  exists y, m_for n from body a = MOk y /\ P (from + N.of_nat n) y.
Proof.
  intros A P body. induction n as [|n IH]; intros from a Ha Hb.
  - exists a. cbn [m_for]. split; [reflexivity|]. now rewrite N.add_0_r.
  - cbn [m_for]. destruct (Hb from a) as (y & Ey & Py); [lia|lia|exact Ha|].
    rewrite Ey. cbn [m_bind].
    destruct (IH (from + 1) y Py) as (z & Ez & Pz).
    + intros i x H1 H2. apply Hb; lia.
    + exists z. split; [exact Ez|]. now replace (from + N.of_nat (S n)) with (from + 1 + N.of_nat n) by lia.
Qed.
Lemma for0 : forall {A} (P : N -> A -> Prop) (body : N -> A -> mres A) n a,
  P 0 a -> (forall i x, i < n -> P i x -> exists y, body i x = MOk y /\ P (i + 1) y) ->
  exists y, m_for (N.to_nat n) 0 body a = MOk y /\ P n y.
Proof.
  intros A P body n a Ha Hb. destruct (for_inv P body (N.to_nat n) 0 a Ha) as (y & E1 & E2).
  - intros i x _ Hi. apply Hb. lia.
  - exists y. split; [exact E1|]. now replace n with (0 + N.of_nat (N.to_nat n)) by lia.
Qed.

Lemma zero_ok : forall from data len, (from + len <= length data)%nat ->
  m_zero data from len = MOk (firstn from data ++ repeat 0 len ++ skipn (from + len) data).
Proof.
  assert (Z0 : forall len data, (len <= length data)%nat ->
    m_zero data 0 len = MOk (repeat 0 len ++ skipn len data)).
  { induction len as [|len IH]; intros data H; [destruct data; reflexivity|].
    destruct data as [|x data]; [cbn in H; lia|]. cbn in H. cbn [m_zero]. rewrite IH by lia. reflexivity. }
  induction from as [|from IH]; intros data len H.
  - rewrite Z0 by lia. reflexivity.
  - destruct data as [|x data]; [cbn in H; lia|]. cbn in H. cbn [m_zero]. rewrite IH by lia. reflexivity.
Qed.

Lemma bytes_small : forall r c, r * c < 2 ^ 61 -> bytes r c = r * c * 8.
Proof.
  intros r c H. unfold bytes, u64, w64. change (2 ^ 61) with 2305843009213693952 in H.
  rewrite (N.mod_small (r * c)) by lia. apply N.mod_small. lia.
Qed.
Lemma words_bytes : forall r c, r * c < 2 ^ 61 -> words (bytes r c) = N.to_nat (r * c).
Proof. intros. unfold words. rewrite bytes_small by assumption. rewrite N.div_mul by lia. reflexivity. Qed.

Lemma index_small : forall m rows cols r c, rows * cols < 2 ^ 61 -> m_cols m = cols -> r < rows -> c < cols ->
  m_index m r c = r * cols + c /\ r * cols + c < rows * cols.
Proof.
  intros m rows cols r c Hb E Hr Hc. subst cols. change (2 ^ 61) with 2305843009213693952 in Hb.
  assert (L : r * m_cols m + c < rows * m_cols m) by nia.
  split; [|exact L]. unfold m_index, add64, u64, w64.
  rewrite (N.mod_small (r * m_cols m)) by lia. apply N.mod_small. lia.
Qed.

Lemma get_ok : forall m rows cols f r c, holds m rows cols f -> r < rows -> c < cols ->
  m_get m r c = MOk (f r c).
Proof.
  intros m rows cols f r c (H1 & H2 & H3 & H4 & H5) Hr Hc. unfold m_get.
  destruct (index_small m rows cols r c H3 H2 Hr Hc) as [-> _]. now rewrite H5.
Qed.
Lemma replace_nth_error : forall l n v k, (n < length l)%nat ->
  nth_error (m_replace n l v) k = if Nat.eqb k n then Some v else nth_error l k.
Proof.
  induction l as [|x l IH]; intros n v k H; [cbn in H; lia|].
  destruct n, k; cbn; auto. apply IH. cbn in H. lia.
Qed.
Lemma replace_len : forall l n v, length (m_replace n l v) = length l.
Proof. induction l; intros [|n] v; cbn; auto. Qed.
Definition upd (f : N -> N -> N) (r c v : N) : N -> N -> N :=
  fun r' c' => if (r' =? r) && (c' =? c) then v else f r' c'.
Lemma index_inj : forall cols r c r' c', c < cols -> c' < cols -> r * cols + c = r' * cols + c' ->
  r = r' /\ c = c'.
Proof.
  intros cols r c r' c' H H' E.
  assert (r = r').
  { transitivity ((r * cols + c) / cols).
    - apply (N.div_unique _ cols r c); lia.
    - symmetry. apply (N.div_unique _ cols r' c'); lia. }
  subst. lia.
Qed.
Lemma set_ok : forall m rows cols f r c v, holds m rows cols f -> r < rows -> c < cols ->
  exists m', m_set m r c v = MOk m' /\ holds m' rows cols (upd f r c v).
Proof.
  intros m rows cols f r c v (H1 & H2 & H3 & H4 & H5) Hr Hc. unfold m_set.
  destruct (index_small m rows cols r c H3 H2 Hr Hc) as [-> Hi].
  destruct (N.ltb_spec (r * cols + c) (N.of_nat (length (m_data m)))); [|lia].
  eexists. split; [reflexivity|].
  unfold holds. cbn [m_rows m_cols m_data]. repeat split; auto.
  - now rewrite replace_len.
  - intros r' c' Hr' Hc'. rewrite replace_nth_error by lia. unfold upd.
    destruct (Nat.eqb_spec (N.to_nat (r' * cols + c')) (N.to_nat (r * cols + c))) as [E|E].
    + destruct (index_inj cols r' c' r c) as [-> ->]; auto; [lia|]. now rewrite !N.eqb_refl.
    + destruct (N.eqb_spec r' r) as [-> |]; cbn [andb]; [|now apply H5].
      destruct (N.eqb_spec c' c) as [-> |]; [lia|now apply H5].
Qed.
Lemma holds_ext : forall m rows cols f g, (forall r c, r < rows -> c < cols -> f r c = g r c) ->
  holds m rows cols f -> holds m rows cols g.
Proof.
  intros m rows cols f g E (H1 & H2 & H3 & H4 & H5). repeat split; auto.
  intros r c Hr Hc. rewrite H5 by assumption. now rewrite E.
Qed.

(** A loop nest that visits every entry once. *)
Lemma nest : forall rows cols R C (m : matrix) f g (body : N -> N -> matrix -> mres matrix),
  holds m rows cols f -> R <= rows -> C <= cols ->
  (forall r c x h, r < R -> c < C -> holds x rows cols h -> h r c = f r c ->
     exists y, body r c x = MOk y /\ holds y rows cols (upd h r c (g r c))) ->
  exists y, m_for (N.to_nat R) 0 (fun r x => m_for (N.to_nat C) 0 (fun c x => body r c x) x) m = MOk y /\
    holds y rows cols (fun r c => if (r <? R) && (c <? C) then g r c else f r c).
Proof.
  intros rows cols R C m f g body Hm HR HC Hb.
  apply (for0 (fun i x => holds x rows cols (fun r c => if (r <? i) && (c <? C) then g r c else f r c))).
  { eapply holds_ext; [|exact Hm]. intros. cbn beta. destruct (N.ltb_spec r 0); [lia|reflexivity]. }
  intros i x Hi Hx.
  destruct (for0 (fun j x => holds x rows cols
     (fun r c => if ((r <? i) && (c <? C)) || ((r =? i) && (c <? j)) then g r c else f r c))
     (fun c x => body i c x) C x) as (y & Ey & Hy).
  - eapply holds_ext; [|exact Hx]. intros. cbn beta. destruct (N.ltb_spec c 0); [lia|].
    now rewrite andb_false_r, orb_false_r.
  - intros j z Hj Hz. destruct (Hb i j z _ Hi Hj Hz) as (y & Ey & Hy).
    { cbn beta. destruct (N.ltb_spec i i), (N.ltb_spec j j); try lia. cbn. now rewrite andb_false_r. }
    exists y. split; [exact Ey|]. eapply holds_ext; [|exact Hy].
    intros r c Hr Hc. unfold upd.
    destruct (N.eqb_spec r i) as [-> |Hn]; cbn [andb].
    + destruct (N.eqb_spec c j) as [-> |Hn].
      * destruct (N.ltb_spec j (j + 1)); [|lia]. now rewrite orb_true_r.
      * destruct (N.ltb_spec c j), (N.ltb_spec c (j + 1)); auto; lia.
    + reflexivity.
  - exists y. split; [exact Ey|]. eapply holds_ext; [|exact Hy].
    intros r c Hr Hc. cbn beta.
    destruct (N.ltb_spec r i), (N.ltb_spec r (i + 1)), (N.eqb_spec r i), (N.ltb_spec c C); cbn [andb orb]; auto; lia.
Qed.

Section JUNK.
  Variable junk : nat -> N.

  Lemma create_ok : forall rows cols, rows * cols < 2 ^ 61 ->
    exists m, m_create junk rows cols = MOk m /\ holds m rows cols (fun _ _ => 0).
  Proof.
    intros rows cols Hb. unfold m_create. rewrite zero_ok.
    - cbn [m_bind]. eexists. split; [reflexivity|]. unfold m_malloc.
      rewrite words_bytes by exact Hb. cbn [firstn app Nat.add].
      rewrite skipn_all2 by (rewrite map_length, seq_length; lia). rewrite app_nil_r.
      repeat split; cbn [m_data]; auto.
      + rewrite repeat_length. lia.
      + intros r c Hr Hc. cbn [m_data]. rewrite nth_error_repeat; [reflexivity|]. nia.
    - unfold m_malloc. rewrite map_length, seq_length. lia.
  Qed.

  Definition resized (rows0 cols0 : N) (f : N -> N -> N) (r c : N) : N :=
    if (r <? rows0) && (c <? cols0) then f r c else 0.

  Lemma resize_ok : forall m rows0 cols0 f rows cols, holds m rows0 cols0 f -> rows * cols < 2 ^ 61 ->
    (cols = cols0 -> rows * cols <> 0) ->
    exists m', m_resize junk m rows cols = MOk m' /\ holds m' rows cols (resized rows0 cols0 f).
  Proof.
    intros m rows0 cols0 f rows cols Hm Hb H0.
    pose proof Hm as (H1 & H2 & H3 & H4 & H5). unfold m_resize. rewrite H1, H2.
    destruct (N.eqb_spec cols cols0) as [-> |Hc].
    - specialize (H0 eq_refl). rewrite !bytes_small by assumption. unfold m_realloc.
      destruct (N.eqb_spec (rows * cols0 * 8) 0) as [E|_]; [lia|].
      assert (W : forall x, words (x * 8) = N.to_nat x).
      { intro x. unfold words. now rewrite N.div_mul by lia. }
      destruct (N.ltb_spec (rows0 * cols0 * 8) (rows * cols0 * 8)) as [L|L].
      + replace (rows * cols0 * 8 - rows0 * cols0 * 8) with ((rows * cols0 - rows0 * cols0) * 8) by lia.
        rewrite !W. rewrite firstn_all2 by lia.
        rewrite zero_ok by (rewrite app_length, map_length, seq_length; lia).
        cbn [m_bind]. eexists. split; [reflexivity|].
        rewrite firstn_app, firstn_all2 by lia.
        replace (N.to_nat (rows0 * cols0) - length (m_data m))%nat with O by lia. cbn [firstn].
        rewrite app_nil_r.
        rewrite skipn_all2 by (rewrite app_length, map_length, seq_length; lia). rewrite app_nil_r.
        repeat split; cbn [m_data]; auto.
        * rewrite app_length, repeat_length. lia.
        * intros r c Hr Hc. unfold resized.
          assert (I : r * cols0 + c < rows * cols0) by nia.
          destruct (N.ltb_spec c cols0); [|lia]. rewrite andb_true_r.
          destruct (N.ltb_spec r rows0) as [Lr|Lr].
          -- rewrite nth_error_app1 by nia. now apply H5.
          -- rewrite nth_error_app2 by nia. rewrite nth_error_repeat; [reflexivity|]. nia.
      + cbn [m_bind]. rewrite W. eexists. split; [reflexivity|].
        replace (N.to_nat (rows * cols0) - length (m_data m))%nat with O by lia.
        cbn [seq map]. rewrite app_nil_r.
        repeat split; cbn [m_data]; auto.
        * rewrite firstn_length. lia.
        * intros r c Hr Hc. unfold resized.
          assert (I : r * cols0 + c < rows * cols0) by nia.
          assert (N1 : forall n (l : list N) k, (k < n)%nat -> nth_error (firstn n l) k = nth_error l k).
          { clear. induction n; intros [|x l] [|k] H; cbn; auto; try lia. apply IHn. lia. }
          rewrite N1 by lia.
          destruct (N.ltb_spec c cols0); [|lia]. rewrite andb_true_r.
          assert (r < rows0) by nia. destruct (N.ltb_spec r rows0); [|lia]. now apply H5.
    - destruct (create_ok rows cols Hb) as (n & En & Hn).
      unfold m_create in En.
      destruct (m_zero (m_malloc junk (bytes rows cols)) 0 (words (bytes rows cols))) as [d|e];
        [|discriminate En].
      cbn [m_bind] in En |- *. injection En as <-.
      destruct (nest rows cols (N.min rows0 rows) (N.min cols0 cols) (mk_matrix rows cols d) (fun _ _ => 0) f
        (fun row col n => v <~~ m_get m row col ;; m_set n row col v) Hn) as (y & Ey & Hy).
      + lia.
      + lia.
      + intros r c x h Hr Hc' Hx _. cbn beta. rewrite (get_ok m rows0 cols0 f) by (auto; lia).
        cbn [m_bind]. apply (set_ok x rows cols); auto; lia.
      + exists y. split; [exact Ey|]. eapply holds_ext; [|exact Hy].
        intros r c Hr Hc'. cbn beta. unfold resized.
        destruct (N.ltb_spec r (N.min rows0 rows)), (N.ltb_spec c (N.min cols0 cols)),
          (N.ltb_spec r rows0), (N.ltb_spec c cols0); cbn [andb]; auto; lia.
  Qed.
End JUNK.

(** ** Copy and compare *)
Lemma copy_ok : forall a b rows cols f g, holds a rows cols f -> holds b rows cols g ->
  exists a', m_copy a b = MOk (a', true) /\ holds a' rows cols g.
Proof.
  intros a b rows cols f g Ha Hb. unfold m_copy.
  pose proof Ha as (A1 & A2 & _). pose proof Hb as (B1 & B2 & _). rewrite A1, A2, B1, B2, !N.eqb_refl.
  cbn [negb orb].
  assert (X : exists y, m_for (N.to_nat rows) 0 (fun row a => m_for (N.to_nat (m_cols a)) 0 (fun col a =>
        v <~~ m_get b row col ;; m_set a row col v) a) a = MOk y /\
        holds y rows cols (fun r c => if (r <? rows) && (c <? cols) then g r c else f r c)).
  { apply (for0 (fun i x => holds x rows cols (fun r c => if (r <? i) && (c <? cols) then g r c else f r c))).
    { eapply holds_ext; [|exact Ha]. intros. cbn beta. destruct (N.ltb_spec r 0); [lia|reflexivity]. }
    intros i x Hi Hx. pose proof Hx as (_ & X2 & _). rewrite X2.
    destruct (for0 (fun j x => holds x rows cols
     (fun r c => if ((r <? i) && (c <? cols)) || ((r =? i) && (c <? j)) then g r c else f r c))
     (fun col a => v <~~ m_get b i col ;; m_set a i col v) cols x) as (y & Ey & Hy).
    - eapply holds_ext; [|exact Hx]. intros. cbn beta. destruct (N.ltb_spec c 0); [lia|].
      now rewrite andb_false_r, orb_false_r.
    - intros j z Hj Hz. rewrite (get_ok b rows cols g) by auto. cbn [m_bind].
      destruct (set_ok z rows cols _ i j (g i j) Hz Hi Hj) as (y & Ey & Hy).
      exists y. split; [exact Ey|]. eapply holds_ext; [|exact Hy].
      intros r c Hr Hc. unfold upd.
      destruct (N.eqb_spec r i) as [-> |Hn]; cbn [andb].
      + destruct (N.eqb_spec c j) as [-> |Hn].
        * destruct (N.ltb_spec j (j + 1)); [|lia]. now rewrite orb_true_r.
        * destruct (N.ltb_spec c j), (N.ltb_spec c (j + 1)); auto; lia.
      + reflexivity.
    - exists y. split; [exact Ey|]. eapply holds_ext; [|exact Hy].
      intros r c Hr Hc. cbn beta.
      destruct (N.ltb_spec r i), (N.ltb_spec r (i + 1)), (N.eqb_spec r i), (N.ltb_spec c cols); cbn [andb orb]; auto; lia. }
  destruct X as (y & -> & Hy). cbn [m_bind]. exists y. split; [reflexivity|].
  eapply holds_ext; [|exact Hy]. intros r c Hr Hc. cbn beta.
  destruct (N.ltb_spec r rows), (N.ltb_spec c cols); auto; lia.
Qed.
Lemma copy_refuses : forall a b ra ca f rb cb g, holds a ra ca f -> holds b rb cb g ->
  ~ (ra = rb /\ ca = cb) -> m_copy a b = MOk (a, false) /\ m_compare a b = MOk false.
Proof.
  intros a b ra ca f rb cb g (A1 & A2 & _) (B1 & B2 & _) H. unfold m_copy, m_compare.
  rewrite A1, A2, B1, B2.
  destruct (N.eqb_spec ra rb), (N.eqb_spec ca cb); cbn [negb orb]; auto. tauto.
Qed.
Lemma compare_ok : forall a b rows cols f g, holds a rows cols f -> holds b rows cols g ->
  exists e, m_compare a b = MOk e /\ (e = true <-> forall r c, r < rows -> c < cols -> f r c = g r c).
Proof.
  intros a b rows cols f g Ha Hb. unfold m_compare.
  pose proof Ha as (A1 & A2 & _). pose proof Hb as (B1 & B2 & _). rewrite A1, A2, B1, B2, !N.eqb_refl.
  cbn [negb orb].
  apply (for0 (fun i (e : bool) => e = true <-> forall r c, r < i -> c < cols -> f r c = g r c)).
  { split; auto. intros. lia. }
  intros i e Hi He.
  destruct (for0 (fun j (e : bool) => e = true <->
     (forall r c, r < i -> c < cols -> f r c = g r c) /\ (forall c, c < j -> f i c = g i c))
    (fun col (eq : bool) => if eq then
          x <~~ m_get a i col ;; y <~~ m_get b i col ;; MOk (x =? y) else MOk false) cols e) as (y & Ey & Hy).
  - rewrite He. split; [|tauto]. intro. split; [assumption|]. intros. lia.
  - intros j z Hj Hz. destruct z.
    + rewrite (get_ok a rows cols f), (get_ok b rows cols g) by auto. cbn [m_bind].
      eexists. split; [reflexivity|]. destruct (proj1 Hz eq_refl) as [Z1 Z2].
      destruct (N.eqb_spec (f i j) (g i j)) as [E|E].
      * split; [|auto]. intros _. split; [exact Z1|]. intros c Hc.
        destruct (N.eq_dec c j) as [-> |]; [exact E|apply Z2; lia].
      * split; [discriminate|]. intros [_ H]. exfalso. apply E, H. lia.
    + exists false. split; [reflexivity|]. split; [discriminate|]. intros [H1 H2].
      apply Hz. split; [exact H1|]. intros. apply H2. lia.
  - exists y. split; [exact Ey|]. rewrite Hy. split.
    + intros [H1 H2] r c Hr Hc. destruct (N.eq_dec r i) as [-> |]; [now apply H2|apply H1; [lia|exact Hc]].
    + intro H. split; intros; apply H; auto; lia.
Qed.

(** ** Product *)
Lemma multiply_ok : forall c a b rows k cols f g h, holds a rows k f -> holds b k cols g -> holds c rows cols h ->
  exists c', m_multiply false c a b = MOk (c', true) /\ holds c' rows cols (product k f g).
Proof.
  intros c a b rows k cols f g h Ha Hb Hc. unfold m_multiply.
  pose proof Ha as (A1 & A2 & _). pose proof Hb as (B1 & B2 & _). pose proof Hc as (C1 & C2 & _).
  rewrite A1, A2, B1, B2, C1, C2, !N.eqb_refl. cbn [negb].
  destruct (nest rows cols rows cols c h (product k f g)
    (fun row col c => c0 <~~ m_set c row col 0 ;;
        m_for (N.to_nat k) 0 (fun x c =>
          s <~~ m_get c row col ;; u <~~ m_get a row x ;; v <~~ m_get b x col ;;
          m_set c row col (add64 s (u64 (u * v)))) c0) Hc) as (y & Ey & Hy).
  - lia.
  - lia.
  - intros r col x hx Hr Hcol Hx _. cbn beta.
    destruct (set_ok x rows cols hx r col 0 Hx Hr Hcol) as (c0 & E0 & H0). rewrite E0. cbn [m_bind].
    destruct (for0 (fun i z => holds z rows cols
                (upd hx r col (sum_to (N.to_nat i) (fun x => f r x * g x col) mod 2 ^ 64)))
      (fun x c => s <~~ m_get c r col ;; u <~~ m_get a r x ;; v <~~ m_get b x col ;;
          m_set c r col (add64 s (u64 (u * v)))) k c0) as (y & Ey & Hy).
    + exact H0.
    + intros i z Hi Hz. rewrite (get_ok z rows cols _ r col Hz Hr Hcol). cbn [m_bind].
      rewrite (get_ok a rows k f), (get_ok b k cols g) by auto. cbn [m_bind].
      unfold upd at 1. rewrite !N.eqb_refl. cbn [andb].
      destruct (set_ok z rows cols _ r col (add64 (sum_to (N.to_nat i) (fun x => f r x * g x col) mod 2 ^ 64)
         (u64 (f r i * g i col))) Hz Hr Hcol) as (y & Ey & Hy).
      exists y. split; [exact Ey|]. eapply holds_ext; [|exact Hy].
      intros r' c' _ _. unfold upd. destruct ((r' =? r) && (c' =? col)); [|reflexivity].
      replace (N.to_nat (i + 1)) with (S (N.to_nat i)) by lia. cbn [sum_to]. rewrite N2Nat.id.
      unfold add64, u64. change w64 with (2 ^ 64). rewrite <- N.add_mod by discriminate. reflexivity.
    + exists y. split; [exact Ey|]. exact Hy.
  - rewrite Ey. cbn [m_bind]. exists y. split; [reflexivity|]. eapply holds_ext; [|exact Hy].
    intros r col Hr Hcol. cbn beta. destruct (N.ltb_spec r rows), (N.ltb_spec col cols); auto; lia.
Qed.
Lemma multiply_refuses : forall alias c a b ra ka f kb cb g rc cc h,
  holds a ra ka f -> holds b kb cb g -> holds c rc cc h ->
  alias = true \/ ~ (ka = kb /\ ra = rc /\ cb = cc) -> m_multiply alias c a b = MOk (c, false).
Proof.
  intros alias c a b ra ka f kb cb g rc cc h (A1 & A2 & _) (B1 & B2 & _) (C1 & C2 & _) H.
  unfold m_multiply. rewrite A1, A2, B1, B2, C1, C2.
  destruct (N.eqb_spec ka kb), (N.eqb_spec ra rc), (N.eqb_spec cb cc); cbn [negb]; auto.
  destruct alias; [reflexivity|]. destruct H as [H|H]; [discriminate|tauto].
Qed.

Definition sign_of (coin : N -> N -> bool) (r c : N) : N :=
  if coin r c then 18446744073709551615 else 1.
Lemma ones_ok : forall coin m rows cols f, holds m rows cols f ->
  exists m', m_random_ones coin m = MOk m' /\ holds m' rows cols (sign_of coin).
Proof.
  intros coin m rows cols f Hm. unfold m_random_ones. pose proof Hm as (M1 & M2 & _). rewrite M1.
  assert (X : exists y, m_for (N.to_nat rows) 0 (fun row m => m_for (N.to_nat cols) 0 (fun col m =>
      m' <~~ m_set m row col 1 ;;
      if coin row col then m_set m' row col 18446744073709551615 else MOk m') m) m = MOk y /\
      holds y rows cols (fun r c => if (r <? rows) && (c <? cols) then sign_of coin r c else f r c)).
  { apply nest; [exact Hm|lia|lia|]. intros r c x h Hr Hc Hx _.
    destruct (set_ok x rows cols h r c 1 Hx Hr Hc) as (y & Ey & Hy). rewrite Ey. cbn [m_bind].
    unfold sign_of. destruct (coin r c) eqn:Ec.
    - destruct (set_ok y rows cols _ r c 18446744073709551615 Hy Hr Hc) as (z & Ez & Hz).
      exists z. split; [exact Ez|]. eapply holds_ext; [|exact Hz].
      intros r' c' _ _. unfold upd. destruct ((r' =? r) && (c' =? c)); reflexivity.
    - exists y. auto. }
  destruct X as (y & Ey & Hy).
  assert (E : m_for (N.to_nat rows) 0 (fun row m => m_for (N.to_nat (m_cols m)) 0 (fun col m =>
      m' <~~ m_set m row col 1 ;;
      if coin row col then m_set m' row col 18446744073709551615 else MOk m') m) m = MOk y).
  { assert (S1 : forall x r c v y, m_set x r c v = MOk y -> m_cols y = m_cols x).
    { intros x r c v z. unfold m_set. destruct (_ <? _); [|discriminate]. intro E1. injection E1 as <-. reflexivity. }
    assert (G : forall n from x, m_cols x = cols ->
      m_for n from (fun row m => m_for (N.to_nat (m_cols m)) 0 (fun col m =>
        m' <~~ m_set m row col 1 ;;
        if coin row col then m_set m' row col 18446744073709551615 else MOk m') m) x =
      m_for n from (fun row m => m_for (N.to_nat cols) 0 (fun col m =>
        m' <~~ m_set m row col 1 ;;
        if coin row col then m_set m' row col 18446744073709551615 else MOk m') m) x).
    { induction n as [|n IH]; intros from x Hx; [reflexivity|]. cbn [m_for]. rewrite Hx.
      destruct (m_for (N.to_nat cols) 0 _ x) as [z|e] eqn:Ez; cbn [m_bind]; [|reflexivity].
      apply IH. clear - Ez Hx S1.
      assert (K : forall k j x z, m_cols x = cols -> m_for k j (fun col m =>
         m' <~~ m_set m from col 1 ;;
         if coin from col then m_set m' from col 18446744073709551615 else MOk m') x = MOk z -> m_cols z = cols).
      { induction k as [|k IHk]; intros j x0 z0 H0 E0; cbn [m_for] in E0; [injection E0 as <-; exact H0|].
        destruct (m_set x0 from j 1) as [x1|] eqn:E1; cbn [m_bind] in E0; [|discriminate E0].
        apply S1 in E1. destruct (coin from j).
        - destruct (m_set x1 from j 18446744073709551615) as [x2|] eqn:E2; cbn [m_bind] in E0; [|discriminate E0].
          apply S1 in E2. apply IHk in E0; congruence.
        - cbn [m_bind] in E0. apply IHk in E0; congruence. }
      eapply K; eauto. }
    rewrite G by exact M2. exact Ey. }
  exists y. split; [exact E|]. eapply holds_ext; [|exact Hy].
  intros r c Hr Hc. cbn beta. destruct (N.ltb_spec r rows), (N.ltb_spec c cols); auto; lia.
Qed.
Lemma projection_ok : forall junk coin a rows cols dims f, holds a rows cols f ->
  rows * dims < 2 ^ 61 -> cols * dims < 2 ^ 61 ->
  exists c, m_projection junk coin a dims = MOk c /\ holds c rows dims (product cols f (sign_of coin)).
Proof.
  intros junk coin a rows cols dims f Ha H1 H2. unfold m_projection.
  pose proof Ha as (A1 & A2 & _). rewrite A1, A2.
  destruct (create_ok junk cols dims H2) as (b & Eb & Hb). rewrite Eb. cbn [m_bind].
  destruct (create_ok junk rows dims H1) as (c & Ec & Hc). rewrite Ec. cbn [m_bind].
  destruct (ones_ok coin b cols dims _ Hb) as (b' & Eb' & Hb'). rewrite Eb'. cbn [m_bind].
  destruct (multiply_ok c a b' rows cols dims _ _ _ Ha Hb' Hc) as (c' & Ec' & Hc').
  rewrite Ec'. cbn [m_bind fst]. exists c'. auto.
Qed.
