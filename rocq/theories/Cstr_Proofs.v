Require Import NArith PeanoNat List Bool Lia ZifyBool ZifyN ZifyNat.
Require Import Verif.Cstr_Model.
Import ListNotations.
Local Open Scope N_scope.

Definition cstring (t : list N) : Prop := ~ In 0 t.
(** Digits, most significant first *)
Definition number (base : N) (ds : list N) : N := fold_left (fun v d => v * base + d) ds 0.
Definition numeral (base : N) (ds : list N) : Prop :=
  Forall (fun d => d < base) ds /\ (ds = [0] \/ exists d r, ds = d :: r /\ 0 < d).

Lemma strlen_ok : forall t r, cstring t -> strlen (t ++ 0 :: r) = Some (length t).
Proof.
  induction t as [|c t IH]; intros r H; [reflexivity|]. cbn. replace (c =? 0) with false.
  - rewrite IH; [reflexivity|]. intros I. apply H. now right.
  - symmetry. apply N.eqb_neq. intros ->. apply H. now left.
Qed.
Lemma tail_cs c t : cstring (c :: t) -> c <> 0 /\ cstring t.
Proof. intros H. split; [intros ->; apply H; now left|intros I; apply H; now right]. Qed.
Lemma strcmp_ok : forall a b ra rb, cstring a -> cstring b -> exists r, strcmp (a ++ 0 :: ra) (b ++ 0 :: rb) = Some r /\ (r = true <-> a = b).
Proof.
  induction a as [|x a IH]; intros [|y b] ra rb A B.
  - exists true. split; [reflexivity|tauto].
  - apply tail_cs in B as [B _]. exists false. cbn. destruct y; [contradiction|]. split; [reflexivity|split; discriminate].
  - apply tail_cs in A as [A _]. exists false. cbn. replace (x =? 0) with false by lia. split; [reflexivity|split; discriminate].
  - apply tail_cs in A as [A A']. apply tail_cs in B as [B B']. cbn. destruct (N.eqb_spec x y) as [<-|E]; cbn.
    + replace (x =? 0) with false by lia. destruct (IH b ra rb A' B') as (r & E & F). exists r. split; [exact E|]. rewrite F. split; [intros ->; reflexivity|now intros [= ->]].
    + exists false. split; [reflexivity|]. split; [discriminate|]. intros [= -> _]. contradiction.
Qed.
Lemma strncmp_ok : forall b a ra rb, cstring a -> cstring b ->
  exists r, strncmp (a ++ 0 :: ra) (b ++ rb) (length b) = Some r /\ (r = true <-> exists u, a = b ++ u).
Proof.
  induction b as [|y b IH]; intros a ra rb A B.
  - exists true. split; [destruct a; reflexivity|]. split; [intros _; exists a; reflexivity|reflexivity].
  - apply tail_cs in B as [B B']. destruct a as [|x a]; cbn.
    + exists false. destruct y; [contradiction|]. split; [reflexivity|]. split; [discriminate|]. intros (u & [=]).
    + apply tail_cs in A as [A A']. destruct (N.eqb_spec x y) as [<-|E]; cbn.
      * replace (x =? 0) with false by lia. destruct (IH a ra rb A' B') as (r & E & F). exists r. split; [exact E|]. rewrite F.
        split; intros (u & U); exists u; congruence.
      * exists false. split; [reflexivity|]. split; [discriminate|]. intros (u & [= -> _]). contradiction.
Qed.
Theorem starts : forall a b ra rb, cstring a -> cstring b ->
  exists r, strstarts (a ++ 0 :: ra) (b ++ 0 :: rb) = Some r /\ (r = true <-> exists u, a = b ++ u).
Proof. intros a b ra rb A B. unfold strstarts. rewrite strlen_ok by exact B. apply strncmp_ok; assumption. Qed.
Theorem ends : forall a b ra rb, cstring a -> cstring b ->
  exists r, strends (a ++ 0 :: ra) (b ++ 0 :: rb) = Some r /\ (r = true <-> exists u, a = u ++ b).
Proof.
  intros a b ra rb A B. unfold strends. rewrite !strlen_ok by assumption. destruct (Nat.ltb_spec (length a) (length b)) as [L|L].
  - exists false. split; [reflexivity|]. split; [discriminate|]. intros (u & ->). rewrite app_length in L. lia.
  - rewrite skipn_app. replace (length a - length b - length a)%nat with O by lia. cbn [skipn].
    assert (C : cstring (skipn (length a - length b) a)).
    { intros I. apply A. rewrite <- (firstn_skipn (length a - length b) a). apply in_or_app. now right. }
    destruct (strcmp_ok (skipn (length a - length b) a) b ra rb C B) as (r & E & F). exists r. split; [exact E|]. rewrite F. split.
    + intros E'. exists (firstn (length a - length b) a). rewrite <- E' at 2. symmetry. apply firstn_skipn.
    + intros (u & ->). rewrite app_length. replace (length u + length b - length b)%nat with (length u) by lia.
      rewrite skipn_app, skipn_all, Nat.sub_diag. reflexivity.
Qed.

(** ** Numbers *)
Lemma number_from base : forall ds v, fold_left (fun v d => v * base + d) ds v >= v * base ^ N.of_nat (length ds).
Proof.
  induction ds as [|d ds IH]; intros v.
  - cbn. rewrite N.mul_1_r. lia.
  - cbn [fold_left length]. specialize (IH (v * base + d)). rewrite Nnat.Nat2N.inj_succ, N.pow_succ_r'.
    assert (v * (base * base ^ N.of_nat (length ds)) <= (v * base + d) * base ^ N.of_nat (length ds)); [|lia].
    rewrite N.mul_assoc. apply N.mul_le_mono_r. lia.
Qed.
(** A numeral of more than one digit is at least the power of its base. *)
Lemma numeral_large base ds : numeral base ds -> (2 <= length ds)%nat -> base ^ (N.of_nat (length ds) - 1) <= number base ds.
Proof.
  intros (_ & [->|(d & r & -> & D)]) L; [cbn in L; lia|]. unfold number. cbn [fold_left length].
  pose proof (number_from base r (0 * base + d)) as H. replace (N.of_nat (S (length r)) - 1) with (N.of_nat (length r)) by lia.
  assert (base ^ N.of_nat (length r) <= (0 * base + d) * base ^ N.of_nat (length r)); [|lia].
  rewrite <- (N.mul_1_l (base ^ N.of_nat (length r))) at 1. apply N.mul_le_mono_r. lia.
Qed.
Lemma digits_bound k base ds size : 2 ^ k <= base -> numeral base ds -> number base ds < 2 ^ (8 * size) ->
  ds = [] \/ (length ds = 1)%nat \/ k * (N.of_nat (length ds) - 1) < 8 * size.
Proof.
  intros B H V. destruct ds as [|d [|e r]]; [now left|right; now left|]. right. right.
  pose proof (numeral_large base (d :: e :: r) H ltac:(cbn; lia)) as L. set (n := N.of_nat (length (d :: e :: r)) - 1) in *.
  assert (P : (2 ^ k) ^ n <= base ^ n) by (apply N.pow_le_mono_l; exact B). rewrite <- N.pow_mul_r in P.
  apply (N.pow_lt_mono_r_iff 2); [lia|]. lia.
Qed.
Lemma max_chars size : 8 * size + 6 <= 3 * str_max_chars size.
Proof. unfold str_max_chars. pose proof (N.div_mod (size * 8 + 8) 9 ltac:(lia)) as E. pose proof (N.mod_lt (size * 8 + 8) 9 ltac:(lia)). lia. Qed.
(** Decimal or octal, with one more character for a sign or the octal 0 *)
Theorem fits : forall size base ds, 1 <= size -> 8 <= base -> numeral base ds -> number base ds < 2 ^ (8 * size) ->
  1 + N.of_nat (length ds) + 1 <= str_max_chars size.
Proof.
  intros size base ds S B H V. pose proof (max_chars size) as M.
  destruct (digits_bound 3 base ds size) as [->|[E|E]]; [exact B|exact H|exact V|cbn; lia|lia|lia].
Qed.
(** Hexadecimal with 0x *)
Theorem fits_hex : forall size ds, 1 <= size -> numeral 16 ds -> number 16 ds < 2 ^ (8 * size) ->
  2 + N.of_nat (length ds) + 1 <= str_max_chars size.
Proof.
  intros size ds S H V. pose proof (max_chars size) as M.
  destruct (digits_bound 4 16 ds size) as [->|[E|E]]; [reflexivity|exact H|exact V|cbn; lia|lia|].
  destruct (N.eq_dec size 1) as [->|N1]; [|lia]. change (str_max_chars 1) with 5. lia.
Qed.

(** ** asprintf *)
Theorem asprintf_ok : forall malloc t, N.of_nat (length t) < 2 ^ 31 - 1 ->
  asprintf malloc (Some t) = (if malloc (N.of_nat (length t) + 1) then AReturn (Some (N.of_nat (length t))) (PTo (t ++ [0])) else AReturn None PNull)
  /\ afmt malloc (Some t) = (if malloc (N.of_nat (length t) + 1) then FText (t ++ [0]) else FNull).
Proof.
  intros malloc t L. change (2 ^ 31 - 1) with 2147483647 in L.
  assert (E : asprintf malloc (Some t) = (if malloc (N.of_nat (length t) + 1) then AReturn (Some (N.of_nat (length t))) (PTo (t ++ [0])) else AReturn None PNull)).
  { unfold asprintf, vasprintf, vsnprintf_len. change int_max with 2147483647. replace (N.of_nat (length t) <=? 2147483647) with true by lia.
    replace (2147483647 <? N.of_nat (length t) + 1) with false by lia. unfold vsprintf. rewrite app_length. cbn [length].
    replace (N.of_nat (length t + 1) <=? N.of_nat (length t) + 1) with true by lia. reflexivity. }
  split; [exact E|]. unfold afmt. change vasprintf with asprintf. rewrite E. destruct (malloc _); reflexivity.
Qed.
Theorem asprintf_any : forall malloc text, asprintf malloc text <> AFault /\
  (asprintf malloc text = AOverflow <-> exists t, text = Some t /\ N.of_nat (length t) = 2 ^ 31 - 1) /\
  (afmt malloc text = FUndefined -> asprintf malloc text = AOverflow).
Proof.
  intros malloc [t|]; [|cbn; repeat split; try discriminate; intros (t & [=] & _)].
  unfold afmt. change vasprintf with asprintf.
  destruct (N.lt_trichotomy (N.of_nat (length t)) (2 ^ 31 - 1)) as [L|[L|L]].
  - destruct (asprintf_ok malloc t L) as [-> _]. destruct (malloc _); (split; [discriminate|]; split; [split; [discriminate|]|discriminate]);
      intros (t' & [= <-] & E); rewrite E in L; exact (False_ind _ (N.lt_irrefl _ L)).
  - assert (E : asprintf malloc (Some t) = AOverflow).
    { unfold asprintf, vasprintf, vsnprintf_len. rewrite L. reflexivity. }
    rewrite E. split; [discriminate|]. split; [split; [intros _; exists t; auto|reflexivity]|reflexivity].
  - assert (E : asprintf malloc (Some t) = AReturn None PUnset).
    { unfold asprintf, vasprintf, vsnprintf_len, int_max. replace (N.of_nat (length t) <=? 2 ^ 31 - 1) with false; [reflexivity|].
      symmetry. apply N.leb_gt. exact L. }
    rewrite E. split; [discriminate|]. split; [split; [discriminate|]|discriminate].
    intros (t' & [= <-] & E'). rewrite E' in L. exact (False_ind _ (N.lt_irrefl _ L)).
Qed.
