(** The arithmetic of the printed shares. *)
Require Import NArith ZArith List Bool Lia ZifyBool ZifyN ZifyNat.
Require Import Verif.Table_Model Verif.Table_Spec.
Import ListNotations.
Local Open Scope N_scope.

Lemma to_even_close n d : 0 < d -> 2 * (to_even n d * d) <= 2 * n + d /\ 2 * n <= 2 * (to_even n d * d) + d.
Proof.
  intros D. unfold to_even.
  pose proof (N.div_mod n d ltac:(lia)) as E. pose proof (N.mod_lt n d ltac:(lia)) as L.
  set (q := n / d) in *. set (r := n mod d) in *. clearbody q r.
  destruct (N.ltb_spec (2 * r) d); [split; nia|]. destruct (N.ltb_spec d (2 * r)); [split; nia|].
  assert (q mod 2 = 0 \/ q mod 2 = 1) as [-> | ->] by (pose proof (N.mod_lt q 2 ltac:(lia)); lia); split; nia.
Qed.

(** The value of [x] is at most a/b times that of [y]. *)
Definition le (a b : N) (x y : fl) : Prop := fst x * snd y * b <= a * (fst y * snd x).
Definition pos (x : fl) : Prop := 0 < snd x.

Lemma le_trans a b a' b' x y z : pos y -> le a b x y -> le a' b' y z -> le (a * a') (b * b') x z.
Proof.
  unfold le, pos. destruct x as [n d], y as [n1 d1], z as [n2 d2]; cbn [fst snd]. intros P A B.
  assert (E : d1 * (n * d2 * (b * b')) <= d1 * (a * a' * (n2 * d))).
  { replace (d1 * (n * d2 * (b * b'))) with (n * d1 * b * (d2 * b')) by lia.
    replace (d1 * (a * a' * (n2 * d))) with (a * d * (a' * (n2 * d1))) by lia.
    transitivity (a * (n1 * d) * (d2 * b')); [apply N.mul_le_mono_r, A|].
    replace (a * (n1 * d) * (d2 * b')) with (a * d * (n1 * d2 * b')) by lia. apply N.mul_le_mono_l, B. }
  apply (N.mul_le_mono_pos_l _ _ d1); [lia|exact E].
Qed.
Lemma le_weaken a b a' b' x y : le a b x y -> 0 < b -> a * b' <= a' * b -> le a' b' x y.
Proof.
  unfold le. destruct x as [n d], y as [n1 d1]; cbn [fst snd]. intros A B C.
  apply (N.mul_le_mono_pos_l _ _ b); [exact B|].
  replace (b * (n * d1 * b')) with (n * d1 * b * b') by lia.
  replace (b * (a' * (n1 * d))) with (a' * b * (n1 * d)) by lia.
  transitivity (a * (n1 * d) * b'); [apply N.mul_le_mono_r, A|].
  replace (a * (n1 * d) * b') with (a * b' * (n1 * d)) by lia. apply N.mul_le_mono_r, C.
Qed.
Definition mul (x y : fl) : fl := (fst x * fst y, snd x * snd y).
Definition dv (x y : fl) : fl := (fst x * snd y, snd x * fst y).
Lemma le_mul a b x y z : le a b x y -> le a b (mul z x) (mul z y).
Proof.
  unfold le, mul. destruct x as [n d], y as [n1 d1], z as [n2 d2]; cbn [fst snd]. intros A.
  replace (n2 * n * (d2 * d1) * b) with (n2 * d2 * (n * d1 * b)) by lia.
  replace (a * (n2 * n1 * (d2 * d))) with (n2 * d2 * (a * (n1 * d))) by lia. apply N.mul_le_mono_l, A.
Qed.
Lemma le_dv_l a b x y z : le a b x y -> le a b (dv x z) (dv y z).
Proof.
  unfold le, dv. destruct x as [n d], y as [n1 d1], z as [n2 d2]; cbn [fst snd]. intros A.
  replace (n * d2 * (d1 * n2) * b) with (n2 * d2 * (n * d1 * b)) by lia.
  replace (a * (n1 * d2 * (d * n2))) with (n2 * d2 * (a * (n1 * d))) by lia. apply N.mul_le_mono_l, A.
Qed.
Lemma le_dv_r a b x y z : le a b y x -> le a b (dv z x) (dv z y).
Proof.
  unfold le, dv. destruct x as [n d], y as [n1 d1], z as [n2 d2]; cbn [fst snd]. intros A.
  replace (n2 * d * (d2 * n1) * b) with (n2 * d2 * (n1 * d * b)) by lia.
  replace (a * (n2 * d1 * (d2 * n))) with (n2 * d2 * (a * (n * d1))) by lia. apply N.mul_le_mono_l, A.
Qed.

(** Both ways *)
Definition near_ (a b : N) (x y : fl) : Prop := le a b x y /\ le a b y x.
Lemma near_trans a b a' b' x y z : pos y -> near_ a b x y -> near_ a' b' y z -> near_ (a * a') (b * b') x z.
Proof.
  intros P [A1 A2] [B1 B2]. split; [apply (le_trans a b a' b' x y z); assumption|].
  rewrite (N.mul_comm a), (N.mul_comm b). apply (le_trans a' b' a b z y x); assumption.
Qed.
Lemma near_mul a b x y z : near_ a b x y -> near_ a b (mul z x) (mul z y).
Proof. intros [A B]. split; apply le_mul; assumption. Qed.
Lemma near_dv_l a b x y z : near_ a b x y -> near_ a b (dv x z) (dv y z).
Proof. intros [A B]. split; apply le_dv_l; assumption. Qed.
Lemma near_dv_r a b x y z : near_ a b x y -> near_ a b (dv z x) (dv z y).
Proof. intros [A B]. split; apply le_dv_r; assumption. Qed.

Lemma round_pos p x : pos (round p x).
Proof.
  destruct x as [n d]. unfold round, pos. destruct (n =? 0); [cbn; lia|].
  destruct (_ <? _); cbn [snd]; apply N.neq_0_lt_0, N.pow_nonzero; lia.
Qed.
Lemma round_zero p x : pos x -> 0 < p -> fst (round p x) = 0 -> fst x = 0.
Proof.
  destruct x as [n d]. unfold round, pos. cbn [fst snd]. intros D P.
  destruct (N.eqb_spec n 0) as [E|E]; [auto|].
  set (u := 2 ^ (p + N.log2 d - N.log2 n)). set (v := 2 ^ (N.log2 n - (p + N.log2 d))).
  assert (U : 0 < u) by (apply N.neq_0_lt_0, N.pow_nonzero; lia).
  assert (V : 0 < v) by (apply N.neq_0_lt_0, N.pow_nonzero; lia).
  pose proof (N.log2_spec n ltac:(lia)) as [N1 _]. pose proof (N.log2_spec d ltac:(lia)) as [_ D2].
  assert (B : 2 ^ (p + N.log2 d) * v <= n * u).
  { unfold u, v. destruct (N.le_ge_cases (N.log2 n) (p + N.log2 d)) as [C|C].
    - replace (N.log2 n - (p + N.log2 d)) with 0 by lia. rewrite N.pow_0_r, N.mul_1_r.
      replace (p + N.log2 d) with (N.log2 n + (p + N.log2 d - N.log2 n)) at 1 by lia.
      rewrite N.pow_add_r. apply N.mul_le_mono_r, N1.
    - replace (p + N.log2 d - N.log2 n) with 0 by lia. rewrite N.pow_0_r, N.mul_1_r, <- N.pow_add_r.
      replace (p + N.log2 d + (N.log2 n - (p + N.log2 d))) with (N.log2 n) by lia. exact N1. }
  assert (Q : 2 ^ p = 2 * 2 ^ (p - 1)) by (rewrite <- N.pow_succ_r'; f_equal; lia).
  assert (PP : 0 < 2 ^ (p - 1)) by (apply N.neq_0_lt_0, N.pow_nonzero; lia).
  rewrite N.pow_succ_r' in D2. rewrite N.pow_add_r in B.
  assert (B2 : 2 ^ (p - 1) * (d * v) < n * u).
  { apply N.lt_le_trans with (2 ^ p * 2 ^ N.log2 d * v); [|exact B]. rewrite Q.
    replace (2 * 2 ^ (p - 1) * 2 ^ N.log2 d * v) with (2 ^ (p - 1) * (2 * 2 ^ N.log2 d * v)) by lia.
    apply N.mul_lt_mono_pos_l; [exact PP|]. apply N.mul_lt_mono_pos_r; assumption. }
  destruct (N.ltb_spec (n * u) (2 ^ p * (d * v))) as [L|L]; cbn [fst]; intros H; exfalso.
  - pose proof (to_even_close (n * u) (d * v) ltac:(nia)) as [_ T].
    apply N.eq_mul_0 in H. destruct H as [H|H]; [|lia]. rewrite H in T. nia.
  - pose proof (to_even_close (n * u) (d * v * 2) ltac:(nia)) as [_ T].
    apply N.eq_mul_0 in H. destruct H as [H|H]; [|lia]. rewrite H in T. rewrite Q in L.
    nia.
Qed.
Lemma round_near p x : pos x -> 0 < p -> near_ (2 ^ p) (2 ^ p - 1) (round p x) x.
Proof.
  destruct x as [n d]. unfold near_, le, pos. cbn [fst snd]. intros D P.
  unfold round. destruct (N.eqb_spec n 0) as [E|E]; [subst n; cbn [fst snd]; lia|].
  set (u := 2 ^ (p + N.log2 d - N.log2 n)). set (v := 2 ^ (N.log2 n - (p + N.log2 d))).
  assert (U : 0 < u) by (apply N.neq_0_lt_0, N.pow_nonzero; lia).
  assert (V : 0 < v) by (apply N.neq_0_lt_0, N.pow_nonzero; lia).
  pose proof (N.log2_spec n ltac:(lia)) as [N1 _]. pose proof (N.log2_spec d ltac:(lia)) as [_ D2].
  assert (B : 2 ^ (p + N.log2 d) * v <= n * u).
  { unfold u, v. destruct (N.le_ge_cases (N.log2 n) (p + N.log2 d)) as [C|C].
    - replace (N.log2 n - (p + N.log2 d)) with 0 by lia. rewrite N.pow_0_r, N.mul_1_r.
      replace (p + N.log2 d) with (N.log2 n + (p + N.log2 d - N.log2 n)) at 1 by lia.
      rewrite N.pow_add_r. apply N.mul_le_mono_r, N1.
    - replace (p + N.log2 d - N.log2 n) with 0 by lia. rewrite N.pow_0_r, N.mul_1_r, <- N.pow_add_r.
      replace (p + N.log2 d + (N.log2 n - (p + N.log2 d))) with (N.log2 n) by lia. exact N1. }
  assert (Q : 2 ^ p = 2 * 2 ^ (p - 1)) by (rewrite <- N.pow_succ_r'; f_equal; lia).
  assert (PP : 0 < 2 ^ (p - 1)) by (apply N.neq_0_lt_0, N.pow_nonzero; lia).
  rewrite N.pow_succ_r' in D2. rewrite N.pow_add_r in B.
  assert (B2 : 2 ^ (p - 1) * (d * v) <= n * u).
  { apply N.lt_le_incl. apply N.lt_le_trans with (2 ^ p * 2 ^ N.log2 d * v); [|exact B]. rewrite Q.
    replace (2 * 2 ^ (p - 1) * 2 ^ N.log2 d * v) with (2 ^ (p - 1) * (2 * 2 ^ N.log2 d * v)) by lia.
    apply N.mul_lt_mono_pos_l; [exact PP|]. apply N.mul_lt_mono_pos_r; assumption. }
  rewrite Q in *. set (k := 2 ^ (p - 1)) in *. clearbody k u v. clear D2 B Q N1.
  assert (G : forall m b a, 0 < b -> k * b <= a -> 2 * (m * b) <= 2 * a + b -> 2 * a <= 2 * (m * b) + b ->
    m * b * (2 * k - 1) <= 2 * k * a /\ a * (2 * k - 1) <= 2 * k * (m * b)).
  { clear - PP. intros m b a B A C1 C2. set (y := m * b) in *. clearbody y.
    split.
    - assert (X : k * (2 * y) <= k * (2 * a + b)) by (apply N.mul_le_mono_l; exact C1). nia.
    - assert (X : k * (2 * a) <= k * (2 * y + b)) by (apply N.mul_le_mono_l; exact C2). nia. }
  destruct (N.ltb_spec (n * u) (2 * k * (d * v))) as [L|L]; cbn [fst snd].
  - pose proof (to_even_close (n * u) (d * v) ltac:(nia)) as [T1 T2].
    set (m := to_even (n * u) (d * v)) in *. clearbody m.
    destruct (G m (d * v) (n * u) ltac:(nia) B2 T1 T2) as [G1 G2].
    replace (m * v * d) with (m * (d * v)) by lia. split; assumption.
  - pose proof (to_even_close (n * u) (d * v * 2) ltac:(nia)) as [T1 T2].
    set (m := to_even (n * u) (d * v * 2)) in *. clearbody m.
    destruct (G m (d * v * 2) (n * u) ltac:(nia) ltac:(lia) T1 T2) as [G1 G2].
    replace (m * (v * 2) * d) with (m * (d * v * 2)) by lia. split; assumption.
Qed.

(** From a share to hundredths *)
Lemma fixed_close n d x : 0 < d -> pos x -> near_ (10 ^ 7 + 1) (10 ^ 7) x (100 * n, d) ->
  close n d (to_even (100 * fst x) (snd x)).
Proof.
  destruct x as [n1 d1]. unfold near_, le, pos, close. cbn [fst snd]. intros D D1 [A B].
  pose proof (to_even_close (100 * n1) d1 D1) as [T1 T2]. set (h := to_even (100 * n1) d1) in *. clearbody h.
  change (10 ^ 7) with 10000000 in *.
  assert (A' : 10000000 * (n1 * d) <= 100 * (10000001 * (n * d1))) by lia.
  assert (B' : 100 * (10000000 * (n * d1)) <= 10000001 * (n1 * d)) by lia. clear A B.
  split; apply (N.mul_le_mono_pos_l _ _ d1); try exact D1.
  - assert (X : d * (2 * (h * d1)) <= d * (2 * (100 * n1) + d1)) by (apply N.mul_le_mono_l; exact T1). nia.
  - assert (X : d * (2 * (100 * n1)) <= d * (2 * (h * d1) + d1)) by (apply N.mul_le_mono_l; exact T2). nia.
Qed.

Definition exact_ (n : N) : fl := (n, 1).
Lemma double_near n : near_ (2 ^ 53) (2 ^ 53 - 1) (double n) (exact_ n).
Proof. apply round_near; [unfold pos; cbn; lia|lia]. Qed.
Lemma double_pos n : pos (double n). Proof. apply round_pos. Qed.
Lemma double_nz n : 0 < n -> 0 < fst (double n).
Proof.
  intros H. destruct (N.eq_dec (fst (double n)) 0) as [E|E]; [|lia].
  unfold double in E. apply round_zero in E; [cbn in E; lia|unfold pos; cbn; lia|lia].
Qed.
Lemma near_weaken a b a' b' x y : near_ a b x y -> 0 < b -> a * b' <= a' * b -> near_ a' b' x y.
Proof. intros [A B] C D. split; eapply le_weaken; eassumption. Qed.

(** 100.0 * a / b *)
Lemma share_near a b : 0 < b ->
  near_ (2 ^ 51) (2 ^ 51 - 1) (over (times hundred (double a)) (double b)) (100 * a, b)
  /\ pos (over (times hundred (double a)) (double b)).
Proof.
  intros B. pose proof (double_pos a) as Pa. pose proof (double_pos b) as Pb. pose proof (double_nz b B) as Nb.
  split; [|apply round_pos].
  set (x := times hundred (double a)).
  assert (Px : pos x) by apply round_pos.
  assert (N1 : near_ (2 ^ 53) (2 ^ 53 - 1) x (mul hundred (double a))).
  { apply (round_near 53 (mul hundred (double a))); [|lia]. unfold pos, mul, hundred in *; cbn [fst snd]. lia. }
  assert (N2 : near_ (2 ^ 53) (2 ^ 53 - 1) (mul hundred (double a)) (mul hundred (exact_ a))) by apply near_mul, double_near.
  assert (P2 : pos (mul hundred (double a))) by (unfold pos, mul, hundred in *; cbn [fst snd]; lia).
  pose proof (near_trans _ _ _ _ _ _ _ P2 N1 N2) as N3.
  assert (N4 : near_ (2 ^ 53) (2 ^ 53 - 1) (over x (double b)) (dv x (double b))).
  { apply (round_near 53 (dv x (double b))); [|lia]. unfold pos, dv in *; cbn [fst snd]. nia. }
  assert (P4 : pos (dv x (double b))) by (unfold pos, dv in *; cbn [fst snd]; nia).
  assert (N5 : near_ (2 ^ 53) (2 ^ 53 - 1) (dv x (double b)) (dv x (exact_ b))) by apply near_dv_r, double_near.
  assert (P5 : pos (dv x (exact_ b))) by (unfold pos, dv, exact_ in *; cbn [fst snd]; nia).
  pose proof (near_dv_l _ _ _ _ (exact_ b) N3) as N6.
  pose proof (near_trans _ _ _ _ _ _ _ P4 N4 (near_trans _ _ _ _ _ _ _ P5 N5 N6)) as N7.
  apply (near_weaken _ _ (2 ^ 51) (2 ^ 51 - 1)) in N7; [|vm_compute; reflexivity|vm_compute; discriminate].
  unfold dv, mul, exact_, hundred in N7. cbn [fst snd] in N7.
  rewrite !N.mul_1_r, !N.mul_1_l in N7. exact N7.
Qed.
Lemma share_close a b : 0 < b ->
  close a b (to_even (100 * fst (over (times hundred (double a)) (double b))) (snd (over (times hundred (double a)) (double b)))).
Proof.
  intros B. destruct (share_near a b B) as [N P]. apply fixed_close; [exact B|exact P|].
  eapply near_weaken; [exact N|vm_compute; reflexivity|vm_compute; discriminate].
Qed.
Lemma float_share_near a b : 0 < b ->
  let f := float (over (times hundred (double a)) (double b)) in
  near_ (10 ^ 7 + 1) (10 ^ 7) f (100 * a, b) /\ pos f.
Proof.
  intros B. destruct (share_near a b B) as [N P]. split; [|apply round_pos].
  assert (N1 : near_ (2 ^ 24) (2 ^ 24 - 1) (float (over (times hundred (double a)) (double b)))
                     (over (times hundred (double a)) (double b))) by (apply round_near; [exact P|lia]).
  eapply near_weaken; [eapply near_trans; [|exact N1|exact N]; exact P|vm_compute; reflexivity|vm_compute; discriminate].
Qed.
(** 100.0 * (a / b) as a float *)
Lemma usage_near a b : 0 < b ->
  let f := float (times hundred (over (double a) (double b))) in
  near_ (10 ^ 7 + 1) (10 ^ 7) f (100 * a, b) /\ pos f.
Proof.
  intros B. pose proof (double_pos a) as Pa. pose proof (double_pos b) as Pb. pose proof (double_nz b B) as Nb.
  split; [|apply round_pos].
  set (x := over (double a) (double b)). assert (Px : pos x) by apply round_pos.
  assert (N1 : near_ (2 ^ 53) (2 ^ 53 - 1) x (dv (double a) (double b))).
  { apply (round_near 53 (dv (double a) (double b))); [|lia]. unfold pos, dv in *; cbn [fst snd]. nia. }
  assert (P1 : pos (dv (double a) (double b))) by (unfold pos, dv in *; cbn [fst snd]; nia).
  assert (N2 : near_ (2 ^ 53) (2 ^ 53 - 1) (dv (double a) (double b)) (dv (double a) (exact_ b))) by apply near_dv_r, double_near.
  assert (P2 : pos (dv (double a) (exact_ b))) by (unfold pos, dv, exact_ in *; cbn [fst snd]; nia).
  assert (N3 : near_ (2 ^ 53) (2 ^ 53 - 1) (dv (double a) (exact_ b)) (dv (exact_ a) (exact_ b))) by apply near_dv_l, double_near.
  pose proof (near_trans _ _ _ _ _ _ _ P1 N1 (near_trans _ _ _ _ _ _ _ P2 N2 N3)) as N4.
  apply (near_mul _ _ _ _ hundred) in N4.
  set (y := times hundred x). assert (Py : pos y) by apply round_pos.
  assert (P5 : pos (mul hundred x)) by (unfold pos, mul, hundred in *; cbn [fst snd]; lia).
  assert (N5 : near_ (2 ^ 53) (2 ^ 53 - 1) y (mul hundred x)) by (apply (round_near 53 (mul hundred x)); [exact P5|lia]).
  assert (N6 : near_ (2 ^ 24) (2 ^ 24 - 1) (float y) y) by (apply round_near; [exact Py|lia]).
  pose proof (near_trans _ _ _ _ _ _ _ Py N6 (near_trans _ _ _ _ _ _ _ P5 N5 N4)) as N7.
  apply (near_weaken _ _ (10 ^ 7 + 1) (10 ^ 7)) in N7; [|vm_compute; reflexivity|vm_compute; discriminate].
  unfold dv, mul, exact_, hundred in N7. cbn [fst snd] in N7.
  rewrite !N.mul_1_r, !N.mul_1_l in N7. exact N7.
Qed.

(** ** Whole numbers are not rounded *)
Lemma to_even_le n d k : 0 < d -> n <= k * d -> to_even n d <= k.
Proof.
  intros D H. unfold to_even.
  pose proof (N.div_mod n d ltac:(lia)) as E. pose proof (N.mod_lt n d ltac:(lia)) as L.
  set (q := n / d) in *. set (r := n mod d) in *. clearbody q r.
  assert (q <= k) by nia.
  destruct (N.ltb_spec (2 * r) d); [lia|].
  assert (q < k) by nia.
  destruct (N.ltb_spec d (2 * r)); [lia|]. pose proof (N.mod_lt q 2 ltac:(lia)). lia.
Qed.
Lemma to_even_mul k d : 0 < d -> to_even (k * d) d = k.
Proof. intros D. unfold to_even. rewrite N.div_mul, N.mod_mul by lia. destruct (N.ltb_spec (2 * 0) d); lia. Qed.
Lemma round_le p k x : pos x -> k < 2 ^ p -> fst x <= k * snd x -> fst (round p x) <= k * snd (round p x).
Proof.
  destruct x as [n d]. unfold pos, round. cbn [fst snd]. intros D K H.
  destruct (N.eqb_spec n 0) as [E|E]; [cbn; lia|].
  pose proof (N.log2_spec d ltac:(lia)) as [_ D2]. pose proof (N.log2_spec n ltac:(lia)) as [N1 _].
  assert (L : N.log2 n <= p + N.log2 d).
  { assert (X : 2 ^ N.log2 n < 2 ^ (p + N.succ (N.log2 d))).
    { rewrite N.pow_add_r. eapply N.le_lt_trans; [exact N1|]. eapply N.le_lt_trans; [exact H|].
      apply N.mul_lt_mono; assumption. }
    apply N.pow_lt_mono_r_iff in X; lia. }
  replace (N.log2 n - (p + N.log2 d)) with 0 by lia. rewrite N.pow_0_r, !N.mul_1_r.
  set (e := p + N.log2 d - N.log2 n). assert (U : 0 < 2 ^ e) by (apply N.neq_0_lt_0, N.pow_nonzero; lia).
  destruct (N.ltb_spec (n * 2 ^ e) (2 ^ p * d)) as [C|C]; cbn [fst snd].
  - apply to_even_le; [exact D|nia].
  - destruct (N.eq_dec e 0) as [Z|Z]; [rewrite Z, N.pow_0_r in C; nia|].
    assert (W : 2 ^ e = 2 * 2 ^ (e - 1)) by (rewrite <- N.pow_succ_r'; f_equal; lia). rewrite W.
    assert (to_even (n * (2 * 2 ^ (e - 1))) (d * 2) <= k * 2 ^ (e - 1)) by (apply to_even_le; [lia|nia]). nia.
Qed.
Lemma round_int p k x : pos x -> k < 2 ^ p -> fst x = k * snd x -> fst (round p x) = k * snd (round p x).
Proof.
  destruct x as [n d]. unfold pos, round. cbn [fst snd]. intros D K H.
  destruct (N.eqb_spec n 0) as [E|E]; [cbn; nia|].
  pose proof (N.log2_spec d ltac:(lia)) as [_ D2]. pose proof (N.log2_spec n ltac:(lia)) as [N1 _].
  assert (L : N.log2 n <= p + N.log2 d).
  { assert (X : 2 ^ N.log2 n < 2 ^ (p + N.succ (N.log2 d))).
    { rewrite N.pow_add_r. eapply N.le_lt_trans; [exact N1|]. rewrite H.
      apply N.mul_lt_mono; assumption. }
    apply N.pow_lt_mono_r_iff in X; lia. }
  replace (N.log2 n - (p + N.log2 d)) with 0 by lia. rewrite N.pow_0_r, !N.mul_1_r.
  set (e := p + N.log2 d - N.log2 n). assert (U : 0 < 2 ^ e) by (apply N.neq_0_lt_0, N.pow_nonzero; lia).
  destruct (N.ltb_spec (n * 2 ^ e) (2 ^ p * d)) as [C|C]; cbn [fst snd].
  - subst n. replace (k * d * 2 ^ e) with (k * 2 ^ e * d) by lia. apply to_even_mul, D.
  - destruct (N.eq_dec e 0) as [Z|Z]; [rewrite Z, N.pow_0_r in C; nia|].
    assert (W : 2 ^ e = 2 * 2 ^ (e - 1)) by (rewrite <- N.pow_succ_r'; f_equal; lia). rewrite W.
    subst n. replace (k * d * (2 * 2 ^ (e - 1))) with (k * 2 ^ (e - 1) * (d * 2)) by lia.
    rewrite to_even_mul by lia. lia.
Qed.

Lemma fuzzy_quiet m n : m < 2 ^ 31 -> n < 2 ^ 31 -> 10 * m <= n -> 0 < n ->
  let f := float (over (times hundred (double m)) (double n)) in fst f <= 10 * snd f.
Proof.
  intros M L H P. cbv zeta. unfold float.
  assert (Dm : fst (double m) = m * snd (double m)) by (apply round_int; [unfold pos; cbn; lia|change (2 ^ 53) with 9007199254740992; change (2 ^ 31) with 2147483648 in M; lia|cbn; lia]).
  assert (Dn : fst (double n) = n * snd (double n)) by (apply round_int; [unfold pos; cbn; lia|change (2 ^ 53) with 9007199254740992; change (2 ^ 31) with 2147483648 in L; lia|cbn; lia]).
  pose proof (double_pos m) as Pm. pose proof (double_pos n) as Pn.
  assert (T : fst (times hundred (double m)) = 100 * m * snd (times hundred (double m))).
  { apply round_int; unfold pos, hundred in *; cbn [fst snd];
      [lia|change (2 ^ 53) with 9007199254740992; change (2 ^ 31) with 2147483648 in M; lia|rewrite Dm; lia]. }
  assert (Pt : pos (times hundred (double m))) by apply round_pos.
  set (x := times hundred (double m)) in *. set (y := double n) in *.
  apply round_le; [apply round_pos|reflexivity|]. apply round_le.
  - unfold pos in *; cbn [fst snd]. rewrite Dn. nia.
  - reflexivity.
  - cbn [fst snd]. rewrite T, Dn. unfold pos in *. clear - H. set (a := snd x). set (b := snd y).
    replace (100 * m * a * b) with (100 * m * (a * b)) by lia. replace (10 * (a * (n * b))) with (10 * n * (a * b)) by lia.
    apply N.mul_le_mono_r. lia.
Qed.
Lemma fuzzy_loud m n : 10000001 * n < 100000000 * m -> 0 < n ->
  let f := float (over (times hundred (double m)) (double n)) in 10 * snd f < fst f.
Proof.
  intros H P. destruct (float_share_near m n P) as [[_ B] Q]. cbv zeta in *.
  set (f := float (over (times hundred (double m)) (double n))) in *. unfold le, pos in *. cbn [fst snd] in B.
  change (10 ^ 7) with 10000000 in B. destruct f as [a d]; cbn [fst snd] in *. clear - H P B Q. nia.
Qed.
