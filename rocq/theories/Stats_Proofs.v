(** Proofs for C32 and C33. *)
Require Import NArith ZArith List Bool Lia.
Require Import ZifyBool ZifyN ZifyNat.
Require Import Verif.Word Verif.Stats_Model Verif.Stats_Spec.
Import ListNotations.
Local Open Scope N_scope.

(** ** Fields *)
Lemma land_hi : forall x lo w m, m = N.shiftl (N.ones w) lo -> x < 2 ^ (lo + w) ->
  N.land x m = x / 2 ^ lo * 2 ^ lo.
Proof.
  intros x lo w m -> H. rewrite land_field. rewrite N.mod_small; [reflexivity|].
  apply N.div_lt_upper_bound; [apply N.pow_nonzero; discriminate|]. rewrite <- N.pow_add_r. exact H.
Qed.
Lemma land_two : forall x lo w k m, m = N.lor (N.shiftl (N.ones w) lo) (N.ones k) -> k <= lo -> x < 2 ^ (lo + w) ->
  N.land x m = x / 2 ^ lo * 2 ^ lo + x mod 2 ^ k.
Proof.
  intros x lo w k m -> K H. rewrite N.land_lor_distr_r, (land_hi x lo w _ eq_refl H), N.land_ones.
  assert (B : x mod 2 ^ k < 2 ^ lo).
  { eapply N.lt_le_trans; [apply N.mod_lt, N.pow_nonzero; discriminate|]. apply N.pow_le_mono_r; [discriminate|exact K]. }
  apply lor_disjoint_add, B.
Qed.

Lemma opal_eq : forall x, wf x -> (N.land (fst x) 0xFFFFFFFFFF000000 =? 0x30000000) = opal x.
Proof.
  intros [ea i] [H _]. unfold opal. cbn [fst] in *.
  rewrite (land_hi ea 24 40 0xFFFFFFFFFF000000 eq_refl H). clear. lia.
Qed.
Lemma li_eq : forall r v x, v = (14 * 2 ^ 10 + r * 2 ^ 5) * 2 ^ 16 -> wf x ->
  (N.land (snd x) 0xffff0000 =? v) = li r x.
Proof.
  intros r v [ea i] -> [_ H]. unfold li. cbn [snd] in *.
  rewrite (land_hi i 16 16 0xffff0000 eq_refl H). clear. lia.
Qed.
Lemma low16 : forall i, N.land i 0xffff = i mod 2 ^ 16.
Proof. intros. change 0xffff with (N.ones 16). apply N.land_ones. Qed.
Lemma switch_eq : forall x, wf x ->
  (0xc000000000000000 <=? fst x) && (N.land (snd x) 0xfe1fffff =? 0x7c0042a6) = switch x.
Proof.
  intros [ea i] [_ H]. unfold switch, kernel, mfspr. cbn [fst snd] in *. f_equal.
  rewrite (land_two i 25 7 21 0xfe1fffff eq_refl ltac:(discriminate) H).
  change (256 mod 2 ^ 5) with 0. change (256 / 2 ^ 5) with 8. clear H. clear ea.
  assert (E1 : i / 2 ^ 26 = i / 2 ^ 25 / 2) by (rewrite N.div_div by discriminate; reflexivity).
  assert (E2 : i / 2 ^ 21 mod 2 ^ 5 = i / 2 ^ 25 mod 2 * 16 + i / 2 ^ 21 mod 16) by lia.
  assert (E3 : i mod 2 ^ 21 = i / 2 ^ 16 mod 2 ^ 5 * 2 ^ 16 + i / 2 ^ 11 mod 2 ^ 5 * 2 ^ 11 + i mod 2 ^ 11) by lia.
  rewrite E1, E2, E3. 
  pose proof (N.mod_lt (i / 2 ^ 16) (2 ^ 5) ltac:(discriminate)).
  pose proof (N.mod_lt (i / 2 ^ 11) (2 ^ 5) ltac:(discriminate)).
  pose proof (N.mod_lt i (2 ^ 11) ltac:(discriminate)).
  pose proof (N.mod_lt (i / 2 ^ 21) 16 ltac:(discriminate)).
  set (a := i / 2 ^ 25) in *. set (b := i / 2 ^ 21 mod 16) in *. set (c := i / 2 ^ 16 mod 2 ^ 5) in *.
  set (d := i / 2 ^ 11 mod 2 ^ 5) in *. set (e := i mod 2 ^ 11) in *. clearbody a b c d e. clear E1 E2 E3.
  change (2 ^ 25) with 33554432. change (2 ^ 16) with 65536 in *. change (2 ^ 11) with 2048 in *.
  change (2 ^ 5) with 32 in *. lia.
Qed.
Lemma time_eq : forall x, wf x ->
  (0xc000000000000000 <=? fst x) && (N.land (snd x) 0xfc1fffff =? 0x7c0c42a6) = time_read x.
Proof.
  intros [ea i] [_ H]. unfold time_read, kernel, mfspr. cbn [fst snd] in *. f_equal.
  rewrite (land_two i 26 6 21 0xfc1fffff eq_refl ltac:(discriminate) H).
  change (268 mod 2 ^ 5) with 12. change (268 / 2 ^ 5) with 8. clear H. clear ea.
  assert (E3 : i mod 2 ^ 21 = i / 2 ^ 16 mod 2 ^ 5 * 2 ^ 16 + i / 2 ^ 11 mod 2 ^ 5 * 2 ^ 11 + i mod 2 ^ 11) by lia.
  rewrite E3.
  pose proof (N.mod_lt (i / 2 ^ 16) (2 ^ 5) ltac:(discriminate)).
  pose proof (N.mod_lt (i / 2 ^ 11) (2 ^ 5) ltac:(discriminate)).
  pose proof (N.mod_lt i (2 ^ 11) ltac:(discriminate)).
  pose proof (N.mod_lt (i / 2 ^ 21) (2 ^ 5) ltac:(discriminate)).
  set (a := i / 2 ^ 26) in *. set (b := i / 2 ^ 21 mod 2 ^ 5) in *. set (c := i / 2 ^ 16 mod 2 ^ 5) in *.
  set (d := i / 2 ^ 11 mod 2 ^ 5) in *. set (e := i mod 2 ^ 11) in *. clearbody a b c d e. clear E3.
  change (2 ^ 26) with 67108864. change (2 ^ 16) with 65536 in *. change (2 ^ 11) with 2048 in *.
  change (2 ^ 5) with 32 in *. lia.
Qed.

(** ** Tables *)
Lemma index_some : forall a l i, index a l = Some i -> nth_error l i = Some a.
Proof.
  induction l as [|x l IH]; intros i H; [discriminate|]. cbn in H.
  destruct (N.eqb_spec x a) as [->|_]; [injection H as <-; reflexivity|].
  destruct (index a l) as [j|]; [|discriminate]. injection H as <-. cbn. apply IH. reflexivity.
Qed.
Lemma index_lt : forall a l i, index a l = Some i -> (i < length l)%nat.
Proof. intros a l i H. apply nth_error_Some. rewrite (index_some _ _ _ H). discriminate. Qed.
Lemma index_none : forall a l, index a l = None -> existsb (N.eqb a) l = false.
Proof.
  induction l as [|x l IH]; intros H; [reflexivity|]. cbn in *.
  destruct (N.eqb_spec x a) as [->|NE]; [discriminate|].
  destruct (index a l); [discriminate|]. rewrite IH by reflexivity.
  rewrite orb_false_r. apply N.eqb_neq. congruence.
Qed.
Lemma index_nodup : forall l i a, NoDup l -> nth_error l i = Some a -> index a l = Some i.
Proof.
  induction l as [|x l IH]; intros i a ND H; [destruct i; discriminate|]. inversion ND; subst.
  destruct i as [|i]; cbn in *.
  - injection H as ->. now rewrite N.eqb_refl.
  - destruct (N.eqb_spec x a) as [->|_].
    + exfalso. apply H2. eapply nth_error_In, H.
    + now rewrite (IH i a).
Qed.
Fixpoint distinct (l : list N) : bool :=
  match l with [] => true | x :: l' => negb (existsb (N.eqb x) l') && distinct l' end.
Lemma distinct_nodup : forall l, distinct l = true -> NoDup l.
Proof.
  induction l as [|x l IH]; intros H; [constructor|]. cbn in H. apply andb_true_iff in H as [H1 H2].
  constructor; [|auto]. intros I. apply negb_true_iff in H1. rewrite <- not_true_iff_false in H1. apply H1.
  apply existsb_exists. exists x. split; [exact I|apply N.eqb_refl].
Qed.
Lemma exceptions_nodup : NoDup exceptions. Proof. apply distinct_nodup. reflexivity. Qed.
Lemma hcalls_nodup : NoDup hcalls. Proof. apply distinct_nodup. reflexivity. Qed.

Lemma exception_eq : forall x k, wf x ->
  exception k x = match exception_entry (fst x) with Some j => (k =? j)%nat | None => false end.
Proof.
  intros [ea i] k [H _]. cbn [fst]. apply eq_true_iff_eq. unfold exception, exception_entry. cbn [fst].
  rewrite (land_two ea 12 52 5 0xfffffffffffff01f eq_refl ltac:(discriminate) H).
  change 0xfff with (N.ones 12). rewrite N.land_ones. split.
  - destruct (nth_error exceptions k) as [a|] eqn:E; [|discriminate]. intros X.
    assert (A : a < 4096 /\ a mod 32 = 0).
    { apply nth_error_In in E. revert a E X. apply (proj1 (Forall_forall (fun a => _ -> a < 4096 /\ a mod 32 = 0) exceptions)).
      repeat constructor. }
    assert (E1 : ea mod 2 ^ 12 = a) by (clear - A X; lia).
    rewrite E1, (index_nodup _ _ _ exceptions_nodup E).
    replace (negb _ && negb _) with false; [apply Nat.eqb_refl|]. clear - A X. lia.
  - destruct (negb _ && negb _) eqn:C; [discriminate|].
    destruct (index (ea mod 2 ^ 12) exceptions) as [j|] eqn:E; [|discriminate].
    intros X. apply Nat.eqb_eq in X. subst j. apply index_some in E. rewrite E. clear - C. lia.
Qed.

Lemma hcall_eq : forall k v, v < 2 ^ 32 -> hcall_is k v = (k =? hcall_find v)%nat.
Proof.
  intros k v H. unfold hcall_find, hcall_is. unfold u32. rewrite N.mod_small by exact H.
  destruct (index v hcalls) as [i|] eqn:E.
  - pose proof (index_some _ _ _ E) as E1.
    assert (X : existsb (N.eqb v) hcalls = true).
    { apply existsb_exists. exists v. split; [eapply nth_error_In, E1|apply N.eqb_refl]. }
    rewrite X, andb_false_r. destruct (Nat.eqb_spec k i) as [->|NE].
    + rewrite E1. now rewrite N.eqb_refl.
    + destruct (nth_error hcalls k) as [t|] eqn:Ek; [|reflexivity]. rewrite orb_false_r. apply N.eqb_neq.
      intros ->. apply NE. pose proof (index_nodup _ _ _ hcalls_nodup Ek). congruence.
  - pose proof (index_none _ _ E) as X. rewrite X. cbn [negb].
    destruct (nth_error hcalls k) as [t|] eqn:Ek.
    + rewrite andb_true_r. destruct (N.eqb_spec t v) as [->|_]; [|reflexivity].
      rewrite (index_nodup _ _ _ hcalls_nodup Ek) in E. discriminate.
    + symmetry. apply Nat.eqb_neq. intros ->. apply nth_error_None in Ek. revert Ek. clear. cbn. lia.
Qed.

Lemma bump_ok : forall i l, (i < length l)%nat -> exists l', bump i l = Some l' /\ length l' = length l
  /\ forall k, nth_error l' k = if (k =? i)%nat then option_map inc (nth_error l k) else nth_error l k.
Proof.
  induction i as [|i IH]; intros [|x l] H; cbn in H; try lia.
  - exists (inc x :: l). repeat split. intros [|k]; reflexivity.
  - destruct (IH l ltac:(lia)) as (l' & E & L & N). exists (x :: l'). cbn. rewrite E. repeat split; [cbn; lia|].
    intros [|k]; [reflexivity|]. cbn. apply N.
Qed.

(** ** Counting *)
Lemma cnt : forall (b : bool) n, (if b then inc (n mod 2 ^ 64) else n mod 2 ^ 64) = ((if b then 1 else 0) + n) mod 2 ^ 64.
Proof.
  intros [|] n; [|reflexivity]. unfold inc, add64. change w64 with (2 ^ 64).
  rewrite N.add_mod_idemp_l by discriminate. f_equal. lia.
Qed.
Lemma sum_one : forall n a (e : nat -> N) j, (a <= j < a + n)%nat ->
  sumN (map (fun k => (if (k =? j)%nat then 1 else 0) + e k) (seq a n)) = 1 + sumN (map e (seq a n)).
Proof.
  induction n as [|n IH]; intros a e j H; [lia|]. cbn [seq map sumN fold_right].
  fold (sumN (map (fun k => (if (k =? j)%nat then 1 else 0) + e k) (seq (S a) n))) (sumN (map e (seq (S a) n))).
  destruct (Nat.eqb_spec a j) as [->|NE].
  - replace (sumN _) with (sumN (map e (seq (S j) n))); [lia|]. f_equal. apply map_ext_in. intros k K.
    apply in_seq in K. replace (k =? j)%nat with false by (symmetry; apply Nat.eqb_neq; lia). lia.
  - rewrite IH by lia. lia.
Qed.
Lemma tab_step : forall l n f g x p (o : option nat),
  tab l n f g p -> g (x :: p) = match o with Some _ => true | None => false end ->
  (forall k, (k < n)%nat -> f k (x :: p) = match o with Some j => (k =? j)%nat | None => false end) ->
  (forall j, o = Some j -> (j < n)%nat) ->
  exists l', match o with Some j => bump j l | None => Some l end = Some l' /\ tab l' n f g (x :: p).
Proof.
  intros l n f g x p o (L & T & S0) G F B.
  assert (SU : sumN (map (fun k => events (f k) (x :: p)) (seq 0 n)) = events g (x :: p)).
  { cbn [events]. rewrite G, <- S0. destruct o as [j|].
    - rewrite <- sum_one with (j := j) by (specialize (B j eq_refl); lia). f_equal. apply map_ext_in.
      intros k K. apply in_seq in K. rewrite (F k) by lia. reflexivity.
    - cbn. f_equal. apply map_ext_in. intros k K. apply in_seq in K. rewrite (F k) by lia. reflexivity. }
  destruct o as [j|].
  - destruct (bump_ok j l ltac:(rewrite L; apply B; reflexivity)) as (l' & E & L' & N).
    exists l'. split; [exact E|]. split; [congruence|]. split; [|exact SU].
    intros k K. rewrite N, (T k K). cbn [events].
    rewrite (F k K). destruct (k =? j)%nat; cbn [option_map]; f_equal. exact (cnt true _).
  - exists l. split; [reflexivity|]. split; [exact L|]. split; [|exact SU].
    intros k K. cbn [events]. rewrite (F k K). apply T, K.
Qed.

Lemma tab0 : forall n f g, tab (repeat 0 n) n f g [].
Proof.
  intros n f g. split; [apply repeat_length|]. split.
  - intros k K. cbn [events]. rewrite nth_error_repeat by exact K. reflexivity.
  - cbn [events]. induction (seq 0 n); [reflexivity|exact IHl].
Qed.
Lemma rel0 : rel [] stt0.
Proof. constructor; try reflexivity; apply tab0. Qed.

Lemma last_at_le : forall f p, last_at f p <= N.of_nat (length p).
Proof. induction p as [|x p IH]; cbn [last_at length]; [lia|]. destruct (f x); lia. Qed.
Lemma r3_lt : forall p, r3 p < 2 ^ 16.
Proof.
  induction p as [|x p IH]; cbn [r3]; [reflexivity|]. destruct (li 3 x); [apply N.mod_lt; discriminate|exact IH].
Qed.
Lemma gap_eq : forall n m, m <= n -> u32 (sub64 (n mod 2 ^ 64) (m mod 2 ^ 64)) = (n - m) mod 2 ^ 32.
Proof.
  intros n m L. unfold u32, sub64. change w64 with (2 ^ 64). change w32 with (2 ^ 32).
  assert (E : (n mod 2 ^ 64 + 2 ^ 64 - m mod 2 ^ 64 mod 2 ^ 64) mod 2 ^ 64 = (n - m) mod 2 ^ 64).
  { rewrite N.mod_mod by discriminate.
    pose proof (N.div_mod n (2 ^ 64) ltac:(discriminate)). pose proof (N.div_mod m (2 ^ 64) ltac:(discriminate)).
    pose proof (N.mod_lt n (2 ^ 64) ltac:(discriminate)). pose proof (N.mod_lt m (2 ^ 64) ltac:(discriminate)).
    set (a := n mod 2 ^ 64) in *. set (b := m mod 2 ^ 64) in *. set (c := n / 2 ^ 64) in *. set (d := m / 2 ^ 64) in *.
    clearbody a b c d. subst n m.
    destruct (N.le_gt_cases b a) as [C|C].
    - assert (d <= c) by lia.
      replace (a + 2 ^ 64 - b) with (a - b + 1 * 2 ^ 64) by lia.
      replace (2 ^ 64 * c + a - (2 ^ 64 * d + b)) with (a - b + (c - d) * 2 ^ 64) by nia.
      now rewrite !N.mod_add by discriminate.
    - assert (d < c) by lia.
      replace (2 ^ 64 * c + a - (2 ^ 64 * d + b)) with (a + 2 ^ 64 - b + (c - d - 1) * 2 ^ 64) by nia.
      now rewrite N.mod_add by discriminate. }
  rewrite E. change (2 ^ 64) with (2 ^ 32 * 2 ^ 32). rewrite N.mod_mul_r by discriminate.
  rewrite N.mul_comm, N.mod_add by discriminate. apply N.mod_mod. discriminate.
Qed.
Lemma idle_add : forall (b : bool) n d, (if b && (d mod 2 ^ 32 <? 10) then add64 (n mod 2 ^ 64) (d mod 2 ^ 32) else n mod 2 ^ 64)
  = ((if b then short d else 0) + n) mod 2 ^ 64.
Proof.
  intros [|] n d; [|reflexivity]. unfold short, add64. change w64 with (2 ^ 64). cbn [andb].
  destruct (_ <? 10); [|reflexivity]. rewrite N.add_mod_idemp_l by discriminate. f_equal. lia.
Qed.
Lemma clamp_eq : forall nr v, 0 < nr -> N.to_nat (if nr <=? v then nr - 1 else v) = slot nr v.
Proof. intros nr v H. unfold slot. destruct (N.leb_spec nr v); lia. Qed.
Lemma slot_lt : forall nr v, 0 < nr -> (slot nr v < N.to_nat nr)%nat.
Proof. intros. unfold slot. lia. Qed.

Lemma hcall_find_lt : forall v, (hcall_find v < length hcalls)%nat.
Proof.
  intros v. unfold hcall_find. destruct (index (u32 v) hcalls) as [i|] eqn:E; [eapply index_lt, E|].
  cbn. lia.
Qed.
Lemma exception_entry_lt : forall ea j, exception_entry ea = Some j -> (j < length exceptions)%nat.
Proof. intros ea j H. unfold exception_entry in H. destruct (negb _ && _); [discriminate|]. eapply index_lt, H. Qed.
Lemma existsb_exception : forall x, wf x ->
  any_exception x = match exception_entry (fst x) with Some _ => true | None => false end.
Proof.
  intros x W. unfold any_exception. destruct (exception_entry (fst x)) as [j|] eqn:E.
  - apply existsb_exists. exists j. split.
    + apply in_seq. unfold exception_entry in E. destruct (negb _ && _); [discriminate|].
      apply index_lt in E. lia.
    + rewrite exception_eq by exact W. rewrite E. apply Nat.eqb_refl.
  - apply not_true_iff_false. intros X. apply existsb_exists in X as (k & _ & X).
    rewrite exception_eq, E in X by exact W. discriminate.
Qed.

Lemma step : forall p s x, wf x -> rel p s -> exists s', log_inst s x = Some s' /\ rel (x :: p) s'.
Proof.
  intros p s x W R. destruct R as [H_total H_system H_opal H_user H_lib H_bin H_r3 H_r0 H_idle H_mftb H_mr31 H_ctx H_ctx_ea H_ctx_mult H_exc H_sys H_opc H_hc H_excn H_sysn H_opcn H_hcn H_opallast]. unfold log_inst, log_stats, set_total.
  cbn [t_total t_system t_opal t_user t_lib t_bin t_r3 t_r0 t_idle t_mftb t_mr31 t_ctx t_ctx_ea t_ctx_mult
       t_exc t_sys t_opc t_hc t_excn t_sysn t_opcn t_hcn t_opallast].
  rewrite (opal_eq x W), (li_eq 3 0x38600000 x eq_refl W), (li_eq 0 0x38000000 x eq_refl W), !low16,
    (switch_eq x W), (time_eq x W).
  change (snd x =? 0x7c601b78) with (is (mr 0 3) x).
  change (snd x =? 0x44000002) with (is (sc 0) x).
  change (snd x =? 0x44000022) with (is (sc 1) x).
  change ((0xc000000000000000 <=? fst x) && (snd x =? 0x7ffffb78)) with (nop31 x).
  change (0xc000000000000000 <=? fst x) with (kernel x).
  assert (KO : negb (kernel x) && opal x = opal x).
  { unfold kernel, opal. destruct W as [W _]. clear - W. 
    destruct (N.eqb_spec (fst x / 2 ^ 24) 0x30); [|apply andb_false_r]. rewrite andb_true_r. lia. }
  rewrite KO. fold (user x).
  replace (user x && negb (0x700000000000 <=? fst x)) with (binary x)
    by (unfold binary; rewrite <- N.ltb_antisym; reflexivity).
  change (user x && (0x700000000000 <=? fst x)) with (library x).
  rewrite H_r3, H_r0.
  change (if li 3 x then snd x mod 2 ^ 16 else r3 p) with (r3 (x :: p)).
  change (if li 0 x then snd x mod 2 ^ 16 else if is (mr 0 3) x then r3 (x :: p) else r0 p) with (r0 (x :: p)).
  rewrite !clamp_eq by reflexivity.
  (* the tables *)
  destruct (tab_step _ _ _ _ x _ (exception_entry (fst x)) H_exc) as (le & -> & TE).
  { cbn [newest]. apply existsb_exception, W. }
  { intros k K. cbn [newest]. apply exception_eq, W. }
  { apply exception_entry_lt. }
  destruct (tab_step _ _ _ _ x _ (if is (sc 0) x then Some (slot 390 (r0 (x :: p))) else None) H_sys) as (lsy & ES & TS).
  { cbn [newest]. destruct (is (sc 0) x); reflexivity. }
  { intros k K. unfold syscall. cbn [newest]. destruct (is (sc 0) x); [apply Nat.eqb_sym|reflexivity]. }
  { intros j Hj. destruct (is (sc 0) x); [|discriminate]. injection Hj as <-. apply slot_lt. reflexivity. }
  destruct (tab_step _ _ _ _ x _ (if opal x && negb (newest opal p) then Some (slot 171 (r0 (x :: p))) else None) H_opc) as (lo & EO & TO).
  { unfold opal_entry. cbn [newest tl]. destruct (opal x && negb (newest opal p)); reflexivity. }
  { intros k K. unfold opalcall, opal_entry. cbn [newest tl]. destruct (opal x && negb (newest opal p)); [apply Nat.eqb_sym|reflexivity]. }
  { intros j Hj. destruct (opal x && negb (newest opal p)); [|discriminate]. injection Hj as <-. apply slot_lt. reflexivity. }
  destruct (tab_step _ _ _ _ x _ (if is (sc 1) x then Some (hcall_find (r3 (x :: p))) else None) H_hc) as (lh & EH & TH).
  { cbn [newest]. destruct (is (sc 1) x); reflexivity. }
  { intros k K. unfold hcall. cbn [newest]. destruct (is (sc 1) x); [|reflexivity]. cbn [andb]. apply hcall_eq.
    pose proof (r3_lt (x :: p)). eapply N.lt_trans; [eassumption|reflexivity]. }
  { intros j Hj. destruct (is (sc 1) x); [|discriminate]. injection Hj as <-. apply hcall_find_lt. }
  change NR_SYSCALLS with 390. change NR_OPALCALLS with 171.
  rewrite H_opallast.
  replace (if is (sc 0) x then bump (slot 390 (r0 (x :: p))) (t_sys s) else Some (t_sys s)) with (Some lsy)
    by (rewrite <- ES; destruct (is (sc 0) x); reflexivity).
  replace (if opal x && negb (newest opal p) then bump (slot 171 (r0 (x :: p))) (t_opc s) else Some (t_opc s)) with (Some lo)
    by (rewrite <- EO; destruct (opal x && negb (newest opal p)); reflexivity).
  replace (if is (sc 1) x then bump (hcall_find (r3 (x :: p))) (t_hc s) else Some (t_hc s)) with (Some lh)
    by (rewrite <- EH; destruct (is (sc 1) x); reflexivity).
  eexists. split; [reflexivity|].
  assert (TT : inc (t_total s) = N.of_nat (length (x :: p)) mod 2 ^ 64).
  { rewrite H_total. rewrite (cnt true). f_equal. cbn [length]. lia. }
  assert (CE : (if switch x && (t_ctx_ea s =? 0) then fst x else t_ctx_ea s) = first_switch (x :: p)).
  { rewrite H_ctx_ea. cbn [first_switch]. destruct (first_switch p); cbn [N.eqb]; [rewrite andb_true_r|rewrite andb_false_r; reflexivity].
    destruct (switch x); reflexivity. }
  constructor;
  cbn [t_total t_system t_opal t_user t_lib t_bin t_r3 t_r0 t_idle t_mftb t_mr31 t_ctx t_ctx_ea t_ctx_mult
       t_exc t_sys t_opc t_hc t_excn t_sysn t_opcn t_hcn t_opallast]; try assumption; try reflexivity;
  try (match goal with E : ?t s = events ?f p mod _ |- (if _ then inc (?t s) else _) = events ?f _ mod _ =>
         rewrite E; cbn [events newest]; rewrite <- cnt; reflexivity end).
  - rewrite TT, H_mftb, H_mr31, H_idle.
    rewrite !gap_eq by (etransitivity; [apply last_at_le|cbn [length]; lia]).
    rewrite idle_add, idle_add. cbn [idle]. f_equal. lia.
  - rewrite TT, H_mftb. cbn [last_at]. destruct (time_read x); reflexivity.
  - rewrite TT, H_mr31. cbn [last_at]. destruct (nop31 x); reflexivity.
  - rewrite CE. cbn [events]. rewrite <- cnt, <- H_ctx_mult. reflexivity.
  - cbn [events newest]. rewrite existsb_exception by exact W. rewrite <- cnt, <- H_excn. reflexivity.
Qed.

Lemma log_rel : forall xs p s, Forall wf xs -> rel p s -> exists s', log_all s xs = Some s' /\ rel (rev xs ++ p) s'.
Proof.
  induction xs as [|x xs IH]; intros p s W R; [exists s; split; [reflexivity|exact R]|].
  inversion W; subst. destruct (step p s x H1 R) as (s1 & E & R1). cbn [log_all]. rewrite E.
  destruct (IH (x :: p) s1 H2 R1) as (s2 & E2 & R2). exists s2. split; [exact E2|].
  cbn [rev]. rewrite <- app_assoc. exact R2.
Qed.
Lemma log_spec : forall xs, Forall wf xs -> exists s, log_all stt0 xs = Some s /\ rel (rev xs) s.
Proof.
  intros xs W. destruct (log_rel xs [] stt0 W rel0) as (s & E & R). rewrite app_nil_r in R. exists s. auto.
Qed.
