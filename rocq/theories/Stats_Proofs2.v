(** Proofs for C32 (sums), C33, C34 and C52. *)
Require Import NArith ZArith List Bool Lia Permutation.
Require Import ZifyBool ZifyN ZifyNat.
Require Import Verif.Word Verif.Stats_Model Verif.Stats_Spec Verif.Stats_Proofs.
Import ListNotations.
Local Open Scope N_scope.

(** ** Sums *)
Lemma events_le : forall f p, events f p <= N.of_nat (length p).
Proof. induction p as [|x p IH]; cbn [events length]; [lia|]. destruct (f (x :: p)); lia. Qed.
Lemma events_add : forall f g h p, (forall q, f q = xorb (g q) (h q) /\ g q && h q = false) ->
  events f p = events g p + events h p.
Proof.
  intros f g h p H. induction p as [|x p IH]; cbn [events]; [reflexivity|].
  destruct (H (x :: p)) as [E D]. rewrite E, IH. destruct (g (x :: p)), (h (x :: p)); try discriminate; cbn [xorb]; lia.
Qed.
Lemma kernel_opal : forall x, kernel x = true -> opal x = false.
Proof. intros x. unfold kernel, opal. lia. Qed.
Lemma classes : forall p, N.of_nat (length p) = events (newest kernel) p + events (newest opal) p + events (newest user) p.
Proof.
  induction p as [|x p IH]; [reflexivity|]. cbn [events length newest].
  pose proof (kernel_opal x). unfold user at 1. destruct (kernel x), (opal x); cbn [negb andb]; try lia.
Qed.
Lemma user_split : forall p, events (newest user) p = events (newest library) p + events (newest binary) p.
Proof.
  intros p. apply events_add. intros [|x q]; [split; reflexivity|]. cbn [newest]. unfold library, binary.
  rewrite (N.ltb_antisym (7 * 2 ^ 44)). destruct (user x), (7 * 2 ^ 44 <=? fst x); split; reflexivity.
Qed.
Lemma nth_error_ext : forall A (l l' : list A), (forall k, nth_error l k = nth_error l' k) -> l = l'.
Proof.
  induction l as [|x l IH]; intros [|y l'] H; [reflexivity| | |].
  - specialize (H O). discriminate.
  - specialize (H O). discriminate.
  - f_equal; [specialize (H O); cbn in H; congruence|]. apply IH. intros k. apply (H (S k)).
Qed.
Lemma tab_sum : forall l n f g p, tab l n f g p -> N.of_nat (length p) < 2 ^ 64 -> sumN l = events g p.
Proof.
  intros l n f g p (L & T & S0) B. rewrite <- S0. f_equal. apply nth_error_ext. intros k.
  destruct (Nat.lt_ge_cases k n) as [K|K].
  - rewrite (T k K). rewrite nth_error_map. rewrite (nth_error_nth' _ O) by (rewrite seq_length; exact K).
    rewrite seq_nth by exact K. cbn. f_equal. apply N.mod_small. pose proof (events_le (f k) p). lia.
  - rewrite (proj2 (nth_error_None l k)) by lia. symmetry. apply nth_error_None. rewrite map_length, seq_length. exact K.
Qed.

Lemma stats_sums : forall xs s, Forall wf xs -> N.of_nat (length xs) < 2 ^ 64 -> log_all stt0 xs = Some s ->
  t_total s = N.of_nat (length xs)
  /\ t_total s = t_system s + t_opal s + t_user s
  /\ t_user s = t_lib s + t_bin s
  /\ t_excn s = sumN (t_exc s) /\ t_sysn s = sumN (t_sys s)
  /\ t_opcn s = sumN (t_opc s) /\ t_hcn s = sumN (t_hc s)
  /\ t_ctx_mult s <= t_ctx s /\ t_ctx s <= t_system s.
Proof.
  intros xs s W B E. destruct (log_spec xs W) as (s' & E' & R). rewrite E in E'. injection E' as <-.
  rewrite <- rev_length in B |- *.
  set (p := rev xs) in *. clearbody p.
  assert (SM : forall f, events f p mod 2 ^ 64 = events f p).
  { intros f. apply N.mod_small. pose proof (events_le f p). lia. }
  destruct R as [H_total H_system H_opal H_user H_lib H_bin H_r3 H_r0 H_idle H_mftb H_mr31 H_ctx H_ctx_ea H_ctx_mult
    H_exc H_sys H_opc H_hc H_excn H_sysn H_opcn H_hcn H_opallast].
  rewrite SM in *. rewrite N.mod_small in H_total by exact B.
  rewrite H_total, H_system, H_opal, H_user, H_lib, H_bin, H_excn, H_sysn, H_opcn, H_hcn, H_ctx, H_ctx_mult.
  rewrite (tab_sum _ _ _ _ _ H_exc B), (tab_sum _ _ _ _ _ H_sys B), (tab_sum _ _ _ _ _ H_opc B), (tab_sum _ _ _ _ _ H_hc B).
  repeat split.
  - apply classes.
  - apply user_split.
  - clear. induction p as [|x p IH]; cbn [events]; [lia|]. unfold other_switch at 1. cbn [newest].
    destruct (switch x); cbn [andb]; [destruct (negb _); lia|lia].
  - clear. induction p as [|x p IH]; cbn [events]; [lia|]. cbn [newest]. unfold switch at 1.
    destruct (kernel x); cbn [andb]; [destruct (mfspr _ _ x); lia|lia].
Qed.

(** ** Idle time *)
Lemma short_le : forall d, short d <= d.
Proof. intros d. unfold short. pose proof (N.mod_le d (2 ^ 32) ltac:(discriminate)). destruct (_ <? 10); lia. Qed.
Lemma idle_le : forall p, idle p <= last_at time_read p + last_at nop31 p.
Proof.
  induction p as [|x p IH]; cbn [idle last_at]; [lia|].
  pose proof (last_at_le time_read p) as L1. pose proof (last_at_le nop31 p) as L2.
  pose proof (short_le (N.of_nat (length (x :: p)) - last_at time_read p)) as S1.
  pose proof (short_le (N.of_nat (length (x :: p)) - last_at nop31 p)) as S2.
  cbn [length] in *. destruct (time_read x), (nop31 x); lia.
Qed.
Lemma idle_bound : forall xs s, Forall wf xs -> 2 * N.of_nat (length xs) < 2 ^ 64 -> log_all stt0 xs = Some s ->
  t_idle s <= 2 * t_total s.
Proof.
  intros xs s W B E. destruct (log_spec xs W) as (s' & E' & R). rewrite E in E'. injection E' as <-.
  rewrite (e_total _ _ R), (e_idle _ _ R). rewrite <- rev_length in B.
  pose proof (idle_le (rev xs)) as I. pose proof (last_at_le time_read (rev xs)). pose proof (last_at_le nop31 (rev xs)).
  rewrite !N.mod_small by lia. lia.
Qed.

(** ** Search in the opcode table *)
Definition pfx (po : popcode) : N := po_opcode po / 2 ^ 26 mod 2 ^ 6.
Lemma hit_pfx : forall d insn po, covers po -> insn < 2 ^ 32 -> hit d insn po = true -> pfx po = insn / 2 ^ 26.
Proof.
  intros d insn po C I H. unfold hit in H. apply andb_true_iff in H as [H _]. apply N.eqb_eq in H.
  unfold pfx. assert (E : po_opcode po / 2 ^ 26 mod 2 ^ 6 = po_opcode po mod 2 ^ 32 / 2 ^ 26).
  { change (2 ^ 32) with (2 ^ 26 * 2 ^ 6). rewrite N.mod_mul_r by discriminate.
    rewrite (N.mul_comm (2 ^ 26)), N.div_add by discriminate.
    rewrite (N.div_small (_ mod 2 ^ 26)) by (apply N.mod_lt; discriminate). reflexivity. }
  rewrite E, <- H. clear E H. rewrite <- !N.shiftr_div_pow2, N.shiftr_land.
  assert (M : N.shiftr (po_mask po mod 2 ^ 32) 26 = N.ones 6).
  { change (N.ones 6) with 63. rewrite <- C. rewrite N.shiftr_div_pow2.
    change (2 ^ 32) with (2 ^ 26 * 2 ^ 6). rewrite N.mod_mul_r by discriminate.
    rewrite (N.mul_comm (2 ^ 26)), N.div_add by discriminate.
    rewrite (N.div_small (_ mod 2 ^ 26)) by (apply N.mod_lt; discriminate). reflexivity. }
  rewrite M, N.land_ones. apply N.mod_small. rewrite N.shiftr_div_pow2.
  apply N.div_lt_upper_bound; [discriminate|]. exact I.
Qed.

Definition in_range (m : list (Z * Z)) (pre : list popcode) : Prop :=
  length m = 64%nat /\ forall q, (q < 64)%nat ->
  let '(st, en) := nth q m (-1, 0)%Z in
  (forall k po, nth_error pre k = Some po -> pfx po = N.of_nat q -> (0 <= st <= Z.of_nat k /\ Z.of_nat k <= en)%Z)
  /\ (st = -1 /\ en = 0 \/ 0 <= st <= en /\ en < Z.of_nat (length pre))%Z.
Lemma nth_upd : forall (m : list (Z * Z)) q r v d, (r < length m)%nat ->
  nth q (firstn r m ++ [v] ++ skipn (S r) m) d = if (q =? r)%nat then v else nth q m d.
Proof.
  induction m as [|x m IH]; intros q r v d H; [cbn in H; lia|]. destruct r as [|r]; cbn [firstn skipn app].
  - destruct q; reflexivity.
  - destruct q; [reflexivity|]. cbn [nth Nat.eqb]. apply IH. cbn in H. lia.
Qed.
Lemma len_upd : forall (m : list (Z * Z)) r v, (r < length m)%nat -> length (firstn r m ++ [v] ++ skipn (S r) m) = length m.
Proof. intros m r v H. rewrite !app_length, firstn_length, skipn_length. cbn [length]. lia. Qed.
Lemma major_prefix : forall po, N.land 0x3f (N.shiftr (po_opcode po) 26) = pfx po.
Proof. intros. rewrite N.land_comm. change 0x3f with (N.ones 6). rewrite N.land_ones, N.shiftr_div_pow2. reflexivity. Qed.
Lemma pfx_lt : forall po, pfx po < 64. Proof. intros. apply N.mod_lt. discriminate. Qed.
Lemma major_ok : forall m pre po, in_range m pre -> in_range (major_step m (length pre) po) (pre ++ [po]).
Proof.
  intros m pre po [L R]. unfold major_step. rewrite major_prefix. pose proof (pfx_lt po) as P.
  set (r := N.to_nat (pfx po)). assert (RL : (r < length m)%nat) by (unfold r; lia).
  destruct (nth r m (-1, 0)%Z) as [st en] eqn:E. split; [rewrite len_upd by exact RL; exact L|].
  intros q Q. rewrite nth_upd by exact RL. specialize (R q Q).
  destruct (Nat.eqb_spec q r) as [->|NE].
  - rewrite E in R. destruct R as [R1 R2]. split.
    + intros k po' K PK.
      destruct (Nat.lt_ge_cases k (length pre)) as [C|C].
      * rewrite nth_error_app1 in K by exact C. specialize (R1 k po' K PK).
        destruct (Z.eqb_spec st (-1)); lia.
      * rewrite nth_error_app2 in K by exact C.
        assert (k = length pre). { assert (k - length pre < 1)%nat by (apply (proj1 (nth_error_Some [po] _)); congruence). lia. }
        subst k. destruct (Z.eqb_spec st (-1)); lia.
    + rewrite app_length. cbn [length]. destruct (Z.eqb_spec st (-1)); lia.
  - destruct (nth q m (-1, 0)%Z) as [st' en']. destruct R as [R1 R2]. split; [|rewrite app_length; cbn [length]; lia].
    intros k po' K PK. destruct (Nat.lt_ge_cases k (length pre)) as [C|C].
    + rewrite nth_error_app1 in K by exact C. exact (R1 k po' K PK).
    + rewrite nth_error_app2 in K by exact C. destruct (k - length pre)%nat as [|j]; cbn in K.
      * injection K as <-. exfalso. apply NE. unfold r. lia.
      * destruct j; discriminate.
Qed.
Lemma majors_ok : forall t m pre, in_range m pre -> in_range (majors m (length pre) t) (pre ++ t).
Proof.
  induction t as [|po t IH]; intros m pre R; cbn [majors]; [rewrite app_nil_r; exact R|].
  replace (pre ++ po :: t) with ((pre ++ [po]) ++ t) by (rewrite <- app_assoc; reflexivity).
  replace (S (length pre)) with (length (pre ++ [po])) by (rewrite app_length; cbn; lia).
  apply IH, major_ok, R.
Qed.
Lemma init_range : forall t, in_range (majors (repeat (-1, 0)%Z 64) 0 t) t.
Proof.
  intros t. apply (majors_ok t _ []). split; [reflexivity|]. intros q Q.
  rewrite nth_repeat. split; [|lia]. intros k po K. destruct k; discriminate.
Qed.

Definition hitd (table : list popcode) (d insn : N) (k : nat) : bool :=
  match nth_error table k with Some po => hit d insn po | None => false end.
Lemma search_ok : forall table d insn fuel i last, last < N.of_nat (length table) ->
  (N.to_nat (last + 1 - i) < fuel)%nat ->
  match search table d fuel i last insn with
  | None => False
  | Some None => forall k, (N.to_nat i <= k <= N.to_nat last)%nat -> hitd table d insn k = false
  | Some (Some k) => (N.to_nat i <= k <= N.to_nat last)%nat /\ hitd table d insn k = true
                     /\ forall j, (N.to_nat i <= j < k)%nat -> hitd table d insn j = false
  end.
Proof.
  intros table d insn. induction fuel as [|fuel IH]; intros i last L F; [lia|]. cbn [search].
  destruct (N.leb_spec i last) as [C|C]; [|intros k K; lia].
  destruct (nth_error table (N.to_nat i)) as [po|] eqn:E.
  - change (matches d po insn) with (hit d insn po). destruct (hit d insn po) eqn:Hh.
    + split; [lia|]. split; [unfold hitd; rewrite E; exact Hh|]. intros j J. lia.
    + specialize (IH (i + 1) last L ltac:(lia)).
      assert (Hi : hitd table d insn (N.to_nat i) = false) by (unfold hitd; rewrite E; exact Hh).
      destruct (search table d fuel (i + 1) last insn) as [[k|]|]; [| |contradiction].
      * destruct IH as (K1 & K2 & K3). split; [lia|]. split; [exact K2|]. intros j J.
        destruct (Nat.eq_dec j (N.to_nat i)) as [->|NE]; [exact Hi|]. apply K3. lia.
      * intros k K. destruct (Nat.eq_dec k (N.to_nat i)) as [->|NE]; [exact Hi|]. apply IH. lia.
  - apply nth_error_None in E. lia.
Qed.
Lemma first_hit_some : forall d t insn k, hitd t d insn k = true ->
  (forall j, (j < k)%nat -> hitd t d insn j = false) -> first_hit d t insn = Some k.
Proof.
  induction t as [|po t IH]; intros insn k H1 H2; [destruct k; discriminate|]. cbn [first_hit].
  destruct k as [|k].
  - cbn in H1. rewrite H1. reflexivity.
  - pose proof (H2 O ltac:(lia)) as H0. cbn in H0. rewrite H0.
    rewrite (IH insn k); [reflexivity|exact H1|]. intros j J. apply (H2 (S j)). lia.
Qed.
Lemma first_hit_none : forall d t insn, (forall k, hitd t d insn k = false) -> first_hit d t insn = None.
Proof.
  induction t as [|po t IH]; intros insn H; [reflexivity|]. cbn [first_hit].
  pose proof (H O) as H0. cbn in H0. rewrite H0. rewrite IH; [reflexivity|]. intros k. apply (H (S k)).
Qed.
Lemma first_hit_lt : forall d t insn k, first_hit d t insn = Some k -> (k < length t)%nat.
Proof.
  induction t as [|po t IH]; intros insn k H; [discriminate|]. cbn in H. destruct (hit d insn po); [injection H as <-; cbn; lia|].
  destruct (first_hit d t insn) as [j|] eqn:E; [|discriminate]. injection H as <-. specialize (IH _ _ E). cbn. lia.
Qed.
Lemma removelast_nth : forall (t : list popcode) k po, nth_error (removelast t) k = Some po -> nth_error t k = Some po.
Proof.
  intros t k po H. destruct t as [|x t]; [destruct k; discriminate|].
  assert (NE : x :: t <> []) by discriminate. rewrite (app_removelast_last x NE). rewrite nth_error_app1; [exact H|].
  apply nth_error_Some. congruence.
Qed.
Lemma removelast_len : forall (t : list popcode), length (removelast t) = pred (length t).
Proof. intros t. rewrite removelast_firstn_len, firstn_length. lia. Qed.
Lemma removelast_hit : forall t d insn k, (k < length (removelast t))%nat -> hitd (removelast t) d insn k = hitd t d insn k.
Proof.
  intros t d insn k K. unfold hitd. destruct (nth_error (removelast t) k) as [po|] eqn:E.
  - rewrite (removelast_nth _ _ _ E). reflexivity.
  - apply nth_error_None in E. lia.
Qed.

Section MIX.
  Variable table : list popcode.
  Variable d : N.
  Hypothesis cov : Forall covers table.
  Hypothesis short_table : N.of_nat (length table) < 2 ^ 31.

  Let t := removelast table.
  Let M := majors (repeat (-1, 0)%Z 64) 0 t.

  Lemma t_cov : forall k po, nth_error t k = Some po -> covers po.
  Proof. intros k po H. apply (proj1 (Forall_forall _ _) cov). eapply nth_error_In, removelast_nth, H. Qed.
  Lemma find_ok : forall insn, insn < 2 ^ 32 ->
    (let '(start, last) := nth (N.to_nat (N.shiftr insn 26)) M (-1, 0)%Z in
     search table d (S (length table)) (Z.to_N (start mod 2 ^ 32)) (Z.to_N (last mod 2 ^ 32)) insn)
    = Some (first_hit d t insn).
  Proof.
    intros insn I. rewrite N.shiftr_div_pow2.
    assert (Q : insn / 2 ^ 26 < 64) by (apply N.div_lt_upper_bound; [discriminate|exact I]).
    destruct (init_range t) as [_ R]. specialize (R (N.to_nat (insn / 2 ^ 26)) ltac:(lia)). fold M in R.
    rewrite N2Nat.id in R.
    destruct (nth (N.to_nat (insn / 2 ^ 26)) M (-1, 0)%Z) as [st en]. destruct R as [R1 R2].
    assert (HP : forall k, hitd t d insn k = true -> (0 <= st <= Z.of_nat k /\ Z.of_nat k <= en)%Z).
    { intros k K. unfold hitd in K. destruct (nth_error t k) as [po|] eqn:E; [|discriminate].
      apply (R1 k po E). apply (hit_pfx d); [eapply t_cov, E|exact I|exact K]. }
    pose proof (removelast_len table) as TL. fold t in TL.
    destruct R2 as [[-> ->]|[R2 R3]].
    - change (Z.to_N (-1 mod 2 ^ 32)) with 4294967295. change (Z.to_N (0 mod 2 ^ 32)) with 0. cbn [search].
      change (4294967295 <=? 0) with false. cbv iota. f_equal. symmetry. apply first_hit_none.
      intros k. destruct (hitd t d insn k) eqn:K; [|reflexivity]. specialize (HP k K). lia.
    - rewrite !Z.mod_small by lia.
      assert (ENL : Z.to_N en < N.of_nat (length table)) by lia.
      pose proof (search_ok table d insn (S (length table)) (Z.to_N st) (Z.to_N en) ENL ltac:(lia)) as SO.
      destruct (search _ _ _ _ _ _) as [[k|]|]; [| |contradiction].
      + destruct SO as (K1 & K2 & K3). f_equal. symmetry. apply first_hit_some.
        * unfold t. rewrite removelast_hit; [exact K2|fold t; lia].
        * intros j J. destruct (hitd t d insn j) eqn:Hj; [|reflexivity]. pose proof (HP j Hj) as B.
          rewrite <- Hj. unfold t. rewrite removelast_hit by (fold t; lia). apply K3. lia.
      + f_equal. symmetry. apply first_hit_none. intros k. destruct (hitd t d insn k) eqn:K; [|reflexivity].
        pose proof (HP k K) as B. rewrite <- K. unfold t. rewrite removelast_hit by (fold t; lia). apply SO. lia.
  Qed.

  (** Occurrences *)
  Definition of_entry (k : nat) (insn : N) : bool :=
    match first_hit d t insn with Some j => (k =? j)%nat | None => false end.
  Definition unknown (insn : N) : bool := match first_hit d t insn with Some _ => false | None => true end.
  Definition occ (f : N -> bool) (insns : list N) : N := N.of_nat (length (filter f insns)).
  Lemma occ_snoc : forall f l x, occ f (l ++ [x]) = (if f x then 1 else 0) + occ f l.
  Proof. intros. unfold occ. rewrite filter_app, app_length. cbn [filter]. destruct (f x); cbn [length]; lia. Qed.

  Record mrel (l : list N) (x : mix) : Prop := mk_mrel {
    m_major : x_major x = M;
    m_len : length (x_count x) = length table;
    m_count : forall k, (k < length table)%nat -> nth_error (x_count x) k = Some (occ (of_entry k) l mod 2 ^ 64);
    m_unknown : x_unknown x = occ unknown l mod 2 ^ 64;
    m_cache : forall insn i, cache_get (x_cache x) insn = Some i -> first_hit d t insn = Some i;
    m_both : (x_hits x + x_misses x) mod 2 ^ 64 = N.of_nat (length l) mod 2 ^ 64 }.

  Lemma mrel0 : mrel [] (mix_init table).
  Proof.
    constructor; cbn [mix_init x_major x_count x_unknown x_cache x_hits x_misses].
    - reflexivity.
    - apply repeat_length.
    - intros k K. rewrite nth_error_repeat by exact K. reflexivity.
    - reflexivity.
    - discriminate.
    - reflexivity.
  Qed.
  Lemma inc_sum : forall a b n, (a + b) mod 2 ^ 64 = n mod 2 ^ 64 -> (inc a + b) mod 2 ^ 64 = (n + 1) mod 2 ^ 64.
  Proof.
    intros a b n H. unfold inc, add64. change w64 with (2 ^ 64). rewrite N.add_mod_idemp_l by discriminate.
    replace (a + 1 + b) with (a + b + 1) by lia.
    rewrite <- (N.add_mod_idemp_l (a + b)), H, N.add_mod_idemp_l by discriminate. reflexivity.
  Qed.
  Lemma mix_step : forall l x insn, insn < 2 ^ 32 -> mrel l x ->
    exists x', log_mix table d x insn = Some x' /\ mrel (l ++ [insn]) x'.
  Proof.
    intros l x insn I R. destruct R as [H1 H2 H3 H4 H5 H6]. unfold log_mix.
    assert (FOUND : forall i, first_hit d t insn = Some i -> exists l', bump i (x_count x) = Some l'
      /\ length l' = length table
      /\ (forall k, (k < length table)%nat -> nth_error l' k = Some (occ (of_entry k) (l ++ [insn]) mod 2 ^ 64))
      /\ x_unknown x = occ unknown (l ++ [insn]) mod 2 ^ 64).
    { intros i E. pose proof (first_hit_lt _ _ _ _ E) as IL. unfold t in IL. rewrite removelast_len in IL.
      destruct (bump_ok i (x_count x) ltac:(lia)) as (l' & B & L & N). exists l'. split; [exact B|]. split; [lia|]. split.
      - intros k K. rewrite N, (H3 k K), occ_snoc. replace (of_entry k insn) with (k =? i)%nat by (unfold of_entry; now rewrite E). destruct (k =? i)%nat; cbn [option_map].
        + f_equal. exact (cnt true _).
        + reflexivity.
      - rewrite occ_snoc. replace (unknown insn) with false by (unfold unknown; now rewrite E). exact H4. }
    assert (LEN : N.of_nat (length (l ++ [insn])) = N.of_nat (length l) + 1) by (rewrite app_length; cbn [length]; lia).
    destruct (cache_get (x_cache x) insn) as [i|] eqn:C.
    - destruct (FOUND i (H5 _ _ C)) as (l' & -> & F1 & F2 & F3). eexists. split; [reflexivity|].
      constructor; cbn [x_major x_count x_unknown x_cache x_hits x_misses]; try assumption.
      rewrite LEN. apply inc_sum, H6.
    - pose proof (find_ok insn I) as F. rewrite H1.
      destruct (nth (N.to_nat (N.shiftr insn 26)) M (-1, 0)%Z) as [st en]. rewrite F.
      assert (H6' : (x_hits x + inc (x_misses x)) mod 2 ^ 64 = N.of_nat (length (l ++ [insn])) mod 2 ^ 64).
      { rewrite LEN, N.add_comm. apply inc_sum. rewrite N.add_comm. exact H6. }
      destruct (first_hit d t insn) as [i|] eqn:E.
      + destruct (FOUND i eq_refl) as (l' & -> & F1 & F2 & F3). eexists. split; [reflexivity|].
        constructor; cbn [x_major x_count x_unknown x_cache x_hits x_misses]; try assumption; [reflexivity|].
        intros insn' j. unfold cache_get. cbn [find fst]. destruct (N.eqb_spec insn insn') as [<-|_].
        * congruence.
        * apply H5.
      + eexists. split; [reflexivity|].
        constructor; cbn [x_major x_count x_unknown x_cache x_hits x_misses]; try assumption; [reflexivity| |].
        * intros k K. rewrite (H3 k K), occ_snoc. replace (of_entry k insn) with false by (unfold of_entry; now rewrite E). reflexivity.
        * rewrite occ_snoc. replace (unknown insn) with true by (unfold unknown; now rewrite E). rewrite H4. exact (cnt true _).
  Qed.
  Lemma mix_rel : forall insns l x, Forall (fun i => i < 2 ^ 32) insns -> mrel l x ->
    exists x', mix_all table d x insns = Some x' /\ mrel (l ++ insns) x'.
  Proof.
    induction insns as [|i r IH]; intros l x W R; [exists x; rewrite app_nil_r; split; [reflexivity|exact R]|].
    inversion W; subst. destruct (mix_step l x i H1 R) as (x1 & E & R1). cbn [mix_all]. rewrite E.
    destruct (IH (l ++ [i]) x1 H2 R1) as (x2 & E2 & R2). exists x2. split; [exact E2|].
    rewrite <- app_assoc in R2. exact R2.
  Qed.
End MIX.

Lemma mix_spec : forall table d insns, Forall covers table -> N.of_nat (length table) < 2 ^ 31 ->
  Forall (fun i => i < 2 ^ 32) insns ->
  exists x, mix_all table d (mix_init table) insns = Some x
  /\ length (x_count x) = length table
  /\ (forall k, (k < length table)%nat -> nth_error (x_count x) k =
        Some (N.of_nat (length (filter (fun i => match first_hit d (removelast table) i with
                                                  | Some j => (k =? j)%nat | None => false end) insns)) mod 2 ^ 64))
  /\ x_unknown x = N.of_nat (length (filter (fun i => match first_hit d (removelast table) i with
                                                  | Some _ => false | None => true end) insns)) mod 2 ^ 64
  /\ (x_hits x + x_misses x) mod 2 ^ 64 = N.of_nat (length insns) mod 2 ^ 64.
Proof.
  intros table d insns C L W. destruct (mix_rel table d C L insns [] _ W (mrel0 table d)) as (x & E & R).
  exists x. destruct R. cbn [app] in *. repeat split; assumption.
Qed.

Lemma filter_len : forall A (f : A -> bool) l, (length (filter f l) <= length l)%nat.
Proof. intros A f l. induction l as [|x l IH]; cbn; [lia|]. destruct (f x); cbn; lia. Qed.
(** Every instruction is counted once. *)
Lemma filter_sum : forall d t n insns, (length t <= n)%nat ->
  sumN (map (fun k => N.of_nat (length (filter (fun i => match first_hit d t i with
      | Some j => (k =? j)%nat | None => false end) insns))) (seq 0 n))
  + N.of_nat (length (filter (fun i => match first_hit d t i with Some _ => false | None => true end) insns))
  = N.of_nat (length insns).
Proof.
  intros d t n insns L. induction insns as [|i r IH].
  - cbn [filter length]. induction (seq 0 n); [reflexivity|exact IHl].
  - cbn [filter length]. destruct (first_hit d t i) as [j|] eqn:E.
    + pose proof (first_hit_lt _ _ _ _ E) as J.
      set (e := fun k => N.of_nat (length (filter (fun i => match first_hit d t i with
        | Some j => (k =? j)%nat | None => false end) r))) in *.
      rewrite map_ext with (g := fun k => (if (k =? j)%nat then 1 else 0) + e k).
      * rewrite sum_one by lia. lia.
      * intros k. unfold e. destruct (k =? j)%nat; cbn [length]; lia.
    + cbn [length]. lia.
Qed.
Lemma mix_total : forall table d insns x, Forall covers table -> N.of_nat (length table) < 2 ^ 31 ->
  Forall (fun i => i < 2 ^ 32) insns -> N.of_nat (length insns) < 2 ^ 64 ->
  mix_all table d (mix_init table) insns = Some x ->
  sumN (x_count x) + x_unknown x = N.of_nat (length insns).
Proof.
  intros table d insns x C L W B E. destruct (mix_spec table d insns C L W) as (x' & E' & X1 & X2 & X3 & _).
  rewrite E in E'. injection E' as <-.
  assert (FL : forall f : N -> bool, N.of_nat (length (filter f insns)) < 2 ^ 64).
  { intros f. pose proof (filter_len _ f insns) as X. lia. }
  rewrite <- (filter_sum d (removelast table) (length table) insns) by (rewrite removelast_len; lia).
  rewrite X3, N.mod_small by apply FL. f_equal. f_equal. apply nth_error_ext. intros k.
  destruct (Nat.lt_ge_cases k (length table)) as [K|K].
  - rewrite (X2 k K), nth_error_map, (nth_error_nth' _ O) by (rewrite seq_length; exact K).
    rewrite seq_nth by exact K. cbn [option_map plus]. f_equal. apply N.mod_small, FL.
  - rewrite (proj2 (nth_error_None (x_count x) k)) by lia. symmetry. apply nth_error_None. rewrite map_length, seq_length. exact K.
Qed.

(** ** Reports *)
Lemma compare_small : forall a b, snd a < 2 ^ 31 -> snd b < 2 ^ 31 ->
  entry_compare a b = (Z.of_N (snd b) - Z.of_N (snd a))%Z.
Proof.
  intros [i a] [j b]. cbn [snd]. intros A B. unfold entry_compare, s32, sub64, w64, w32. cbn [snd].
  change (2 ^ 31) with 2147483648 in *.
  destruct (N.le_gt_cases a b) as [C|C].
  - replace ((b + 18446744073709551616 - a mod 18446744073709551616) mod 18446744073709551616) with (b - a).
    + rewrite N.mod_small by lia. destruct (N.ltb_spec (b - a) 2147483648); lia.
    + rewrite (N.mod_small a) by lia. replace (b + 18446744073709551616 - a) with (b - a + 1 * 18446744073709551616) by lia.
      rewrite N.mod_add by discriminate. symmetry. apply N.mod_small. lia.
  - replace ((b + 18446744073709551616 - a mod 18446744073709551616) mod 18446744073709551616)
      with (18446744073709551616 - (a - b)).
    + replace ((18446744073709551616 - (a - b)) mod 4294967296) with (4294967296 - (a - b)).
      * destruct (N.ltb_spec (4294967296 - (a - b)) 2147483648); lia.
      * replace (18446744073709551616 - (a - b)) with (4294967296 - (a - b) + 4294967295 * 4294967296) by lia.
        rewrite N.mod_add by discriminate. symmetry. apply N.mod_small. lia.
    + rewrite (N.mod_small a) by lia. rewrite N.mod_small by lia. lia.
Qed.
Lemma combine_in : forall (counts : list N) a k c, In (k, c) (combine (seq a (length counts)) counts) <->
  (a <= k)%nat /\ nth_error counts (k - a) = Some c.
Proof.
  induction counts as [|x l IH]; intros a k c; cbn [length seq combine].
  - split; [intros []|]. intros [_ H]. destruct (k - a)%nat; discriminate.
  - cbn [In]. rewrite IH. split.
    + intros [H|[H1 H2]].
      * injection H as <- <-. rewrite Nat.sub_diag. split; [lia|reflexivity].
      * split; [lia|]. replace (k - a)%nat with (S (k - S a)) by lia. exact H2.
    + intros [H1 H2]. destruct (Nat.eq_dec k a) as [->|NE].
      * left. rewrite Nat.sub_diag in H2. cbn in H2. congruence.
      * right. split; [lia|]. replace (k - a)%nat with (S (k - S a)) in H2 by lia. exact H2.
Qed.
Lemma combine_fst : forall (counts : list N) a, map fst (combine (seq a (length counts)) counts) = seq a (length counts).
Proof. induction counts as [|x l IH]; intros a; [reflexivity|]. cbn. now rewrite IH. Qed.
Lemma ordered_filter : forall R f l, ordered R l -> ordered R (filter f l).
Proof.
  induction l as [|e l IH]; intros H; [exact H|]. destruct H as [H1 H2]. cbn [filter]. destruct (f e); [|auto].
  split; [|auto]. rewrite Forall_forall in *. intros x X. apply filter_In in X as [X _]. auto.
Qed.
Lemma ordered_weak : forall (R R' : entry -> entry -> Prop) l, (forall a b, In a l -> In b l -> R a b -> R' a b) ->
  ordered R l -> ordered R' l.
Proof.
  induction l as [|e l IH]; intros H O; [exact I|]. destruct O as [O1 O2]. split.
  - rewrite Forall_forall in *. intros x X. apply H; [left; reflexivity|right; exact X|auto].
  - apply IH; [|exact O2]. intros a b A B. apply H; right; assumption.
Qed.
Lemma until_filter : forall l, ordered (fun a b => snd b <= snd a) l ->
  until_zero l = filter (fun e => negb (snd e =? 0)) l.
Proof.
  induction l as [|e l IH]; intros H; [reflexivity|]. destruct H as [H1 H2]. cbn [until_zero filter].
  destruct (N.eqb_spec (snd e) 0) as [Z|_]; cbn [negb]; [|now rewrite IH].
  symmetry. clear IH H2. induction l as [|x l IH]; [reflexivity|]. inversion H1; subst. cbn [filter].
  replace (snd x =? 0) with true by (symmetry; apply N.eqb_eq; lia). cbn [negb]. auto.
Qed.
Lemma filter_map_nodup : forall (f : entry -> bool) l, NoDup (map fst l) -> NoDup (map fst (filter f l)).
Proof.
  induction l as [|e l IH]; intros H; [exact H|]. cbn [map] in H. inversion H; subst. cbn [filter].
  destruct (f e); [|auto]. cbn [map]. constructor; [|auto]. intros X. apply H2.
  apply in_map_iff in X as (y & E & Y). apply filter_In in Y as [Y _]. apply in_map_iff. exists y. auto.
Qed.
Lemma report_ok : forall qs counts, sorter qs -> Forall (fun c => c < 2 ^ 31) counts ->
  complete counts (report qs counts) /\ report_until qs counts = report qs counts.
Proof.
  intros qs counts S0 B. set (l := combine (seq 0 (length counts)) counts).
  assert (LB : forall e, In e l -> snd e < 2 ^ 31).
  { intros [k c] H. apply combine_in in H as [_ H]. apply nth_error_In in H. rewrite Forall_forall in B. apply B, H. }
  destruct (S0 entry_compare l) as [P O].
  { split.
    - intros a b A A'. rewrite !compare_small by auto. lia.
    - intros a b c A A' A''. rewrite !compare_small by auto. lia. }
  assert (O' : ordered (fun a b => snd b <= snd a) (qs entry_compare l)).
  { eapply ordered_weak; [|exact O]. intros a b A A' X.
    apply (Permutation_in _ (Permutation_sym P)) in A, A'. cbn beta in X. rewrite compare_small in X by auto. lia. }
  unfold report_until, report. fold l. split; [|apply until_filter, O']. split; [|split].
  - intros k c. rewrite filter_In. cbn [snd].
    assert (X : In (k, c) (qs entry_compare l) <-> nth_error counts k = Some c).
    { split; intros H.
      - apply (Permutation_in _ (Permutation_sym P)) in H. apply combine_in in H as [_ H]. rewrite Nat.sub_0_r in H. exact H.
      - apply (Permutation_in _ P). apply combine_in. rewrite Nat.sub_0_r. split; [lia|exact H]. }
    rewrite X. clear. rewrite negb_true_iff, N.eqb_neq. reflexivity.
  - apply filter_map_nodup. eapply Permutation_NoDup; [apply Permutation_map, P|]. unfold l. rewrite combine_fst. apply seq_NoDup.
  - apply ordered_filter, O'.
Qed.

(** With 2^31+1 uses of one call, no sorted order lets the list begin. *)
Lemma report_hides : forall qs, sorter qs -> report_until qs [0; 2 ^ 31 + 1] = [].
Proof.
  intros qs S0. unfold report_until. cbn [length seq combine].
  set (a := (0%nat, 0)). set (b := (1%nat, 2 ^ 31 + 1)).
  assert (AB : entry_compare a b = (-2147483647)%Z) by reflexivity.
  assert (BA : entry_compare b a = 2147483647%Z) by reflexivity.
  assert (AA : entry_compare a a = 0%Z) by reflexivity. assert (BB : entry_compare b b = 0%Z) by reflexivity.
  destruct (S0 entry_compare [a; b]) as [P O].
  { split.
    - intros x y [<- | [<- | []]] [<- | [<- | []]]; rewrite ?AB, ?BA, ?AA, ?BB; reflexivity.
    - intros x y z [<- | [<- | []]] [<- | [<- | []]] [<- | [<- | []]]; rewrite ?AB, ?BA, ?AA, ?BB; lia. }
  destruct (qs entry_compare [a; b]) as [|x [|y [|z l]]]; try (apply Permutation_length in P; discriminate).
  apply Permutation_length_2_inv in P as [E|E].
  - injection E as -> ->. reflexivity.
  - injection E as -> ->. destruct O as [O _]. inversion O; subst. rewrite BA in H1. lia.
Qed.
