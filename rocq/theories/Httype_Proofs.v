(** The elements of a key. *)
Require Import Arith NArith List Bool Permutation Lia ZifyBool ZifyN ZifyNat.
Require Import Verif.Word Verif.Htable_Model Verif.Htable_Spec Verif.Htable_Proofs Verif.Htable_Proofs2 Verif.Htable_Proofs3 Verif.Httype_Model.
Import ListNotations.
Local Open Scope N_scope.

Fixpoint rng (n : nat) (a : N) : list N := match n with O => [] | S n' => a :: rng n' (a + 1) end.
Lemma in_rng : forall n a x, In x (rng n a) <-> a <= x < a + N.of_nat n.
Proof. induction n as [|n IH]; intros a x; cbn [rng In]; [lia|]. rewrite IH. lia. Qed.
Lemma rng_app : forall n m a, rng (n + m) a = rng n a ++ rng m (a + N.of_nat n).
Proof.
  induction n as [|n IH]; intros m a; cbn [rng Nat.add app]; [f_equal; lia|]. rewrite IH. do 3 f_equal. lia.
Qed.
Lemma rng_length : forall n a, length (rng n a) = n.
Proof. induction n; intros a; cbn; auto. Qed.
Lemma rng_nodup : forall n a, NoDup (rng n a).
Proof. induction n as [|n IH]; intros a; cbn; constructor; [rewrite in_rng; lia|apply IH]. Qed.
Lemma filter_none {A} (f : A -> bool) l : (forall x, In x l -> f x = false) -> filter f l = [].
Proof. induction l as [|x l IH]; intros H; [reflexivity|]. cbn. rewrite (H x (or_introl eq_refl)). apply IH. intros y Y. apply H. now right. Qed.
Lemma filter_perm {A} (f : A -> bool) : forall l m, Permutation l m -> Permutation (filter f l) (filter f m).
Proof.
  induction 1 as [|x l m P IH|x y l|l m n P1 IH1 P2 IH2]; cbn.
  - constructor.
  - destruct (f x); [constructor|]; exact IH.
  - destruct (f x), (f y); try constructor; apply Permutation_refl.
  - exact (Permutation_trans IH1 IH2).
Qed.
Lemma filter_mapped {A B} (f : B -> bool) (g : A -> B) l : filter f (map g l) = map g (filter (fun x => f (g x)) l).
Proof. induction l as [|x l IH]; [reflexivity|]. cbn. destruct (f (g x)); cbn; rewrite IH; reflexivity. Qed.
Lemma filter_twice {A} (f g : A -> bool) l : filter f (filter g l) = filter (fun x => g x && f x) l.
Proof. induction l as [|x l IH]; [reflexivity|]. cbn. destruct (g x); cbn; [destruct (f x)|]; rewrite IH; reflexivity. Qed.
Lemma table_rng T : map (get T) (rng (length T) 0) = T.
Proof.
  assert (G : forall P T, map (get (P ++ T)) (rng (length T) (len P)) = T).
  { intros P U. revert P. induction U as [|x U IH]; intros P; [reflexivity|]. cbn [length rng map]. f_equal.
    - unfold get, len. rewrite Nnat.Nat2N.id, app_nth2, Nat.sub_diag by lia. reflexivity.
    - specialize (IH (P ++ [x])). rewrite <- app_assoc in IH. cbn [app] in IH. rewrite <- IH at 3. f_equal. f_equal. unfold len. rewrite app_length. cbn. lia. }
  exact (G [] T).
Qed.

Section TOP.
  Variable t : N. Hypothesis Ht : 1 <= t.
  Variable K : Type. Variable keyof : N -> K. Variable hashfn : K -> N. Variable eqfn : N -> K -> bool.
  Hypothesis eqkey : forall p k, eqfn p k = true <-> keyof p = k.
  Notation rehash := (elem_hash K keyof hashfn).
  Variable k0 : K.
  Notation hash := (key_hash K hashfn k0).
  Notation cmp := (fun p => eqfn p k0).
  Section LOOK.
    Variable h : ht. Variable els : list N.
    Hypothesis C : core t rehash h els.
    Notation slot k := (get (h_table h) ((bucket h hash + k) mod size h)).
    Variable z : N.
    Hypothesis Hz : z < size h.
    Hypothesis Hz0 : slot z = 0.
    Hypothesis Hzl : forall j, j < z -> slot j <> 0.
    Definition sel (k : N) : bool := hit h hash k && eqfn (raw h (slot k)) k0.
    (** the first from [a] *)
    Definition first_sel (a : N) (r : option (N * N)) : Prop :=
      match r with
      | None => forall k, a <= k < z -> sel k = false
      | Some (off, p) => exists k, a <= k < z /\ off = (bucket h hash + k) mod size h /\ p = raw h (slot k) /\ sel k = true /\
          forall j, a <= j < k -> sel j = false
      end.
    Lemma match_sel : forall fuel a c, first_hit h hash z a c -> (N.to_nat (z - a) <= fuel)%nat ->
      exists r, find_loop fuel h hash cmp c = HtOk r /\ first_sel a r.
    Proof.
      induction fuel as [|fuel IH]; intros a c Hc Hf; destruct c as [[off p]|]; cbn [find_loop].
      - destruct Hc as (k & ? & _). lia.
      - exists None. split; [reflexivity|]. intros k Hk. unfold sel. rewrite Hc by exact Hk. reflexivity.
      - destruct Hc as (k & K1 & K2 & K3 & K4 & K5). cbn beta. destruct (eqfn p k0) eqn:Ep.
        + eexists. split; [reflexivity|]. exists k. split; [exact K1|]. split; [exact K2|]. split; [exact K3|]. split.
          * unfold sel. rewrite K4, <- K3, Ep. reflexivity.
          * intros j Hj. unfold sel. rewrite K5 by exact Hj. reflexivity.
        + rewrite K2. destruct (nextval_ok t Ht rehash h els C hash z Hz Hz0 Hzl k) as (r & Er & Fr); [lia|].
          rewrite Er. cbn [ht_bind]. destruct (IH (k + 1) r Fr) as (r' & Er' & Fr'); [lia|]. exists r'. split; [exact Er'|].
          assert (N : forall j, a <= j < k + 1 -> sel j = false).
          { intros j Hj. unfold sel. destruct (N.eq_dec j k) as [->|]; [rewrite <- K3, Ep; apply andb_false_r|]. rewrite K5 by lia. reflexivity. }
          destruct r' as [[off' p']|]; cbn [first_sel] in Fr' |- *.
          * destruct Fr' as (k' & A1 & A2 & A3 & A4 & A5). exists k'. repeat (split; [first [assumption|lia]|]).
            intros j Hj. destruct (N.lt_ge_cases j (k + 1)); [apply N; lia|apply A5; lia].
          * intros j Hj. destruct (N.lt_ge_cases j (k + 1)); [apply N; lia|apply Fr'; lia].
      - exists None. split; [reflexivity|]. intros k Hk. unfold sel. rewrite Hc by exact Hk. reflexivity.
    Qed.
    Lemma fuelz : (N.to_nat z < fuel_of h)%nat.
    Proof. exact (fuel_z t Ht rehash h els C hash z Hz Hz0 Hzl). Qed.
    Definition enum (a : N) : list N := map (fun k => raw h (slot k)) (filter sel (rng (N.to_nat (z - a)) a)).
    Lemma rest_ok : forall fuel a c, first_sel a c -> (N.to_nat (z - a) <= fuel)%nat ->
      get_rest K hashfn eqfn fuel h k0 c = HtOk (enum a).
    Proof.
      induction fuel as [|fuel IH]; intros a c F Hf; (destruct c as [[off p]|]; cbn [get_rest];
        [|unfold enum; rewrite filter_none; [reflexivity|]; intros x X; apply in_rng in X; apply F; lia]).
      - destruct F as (k & ? & _). lia.
      - destruct F as (k & K1 & K2 & K3 & K4 & K5). unfold getnext. rewrite K2.
        destruct (nextval_ok t Ht rehash h els C hash z Hz Hz0 Hzl k) as (r & Er & Fr); [lia|]. rewrite Er. cbn [ht_bind].
        unfold getmatch. destruct (match_sel (fuel_of h) (k + 1) r Fr) as (r' & Er' & Fr'); [pose proof fuelz; lia|]. rewrite Er'. cbn [ht_bind].
        rewrite (IH (k + 1) r' Fr') by lia. cbn [ht_bind]. f_equal. unfold enum.
        replace (N.to_nat (z - a)) with (N.to_nat (k - a) + S (N.to_nat (z - (k + 1))))%nat by lia. rewrite rng_app, filter_app.
        rewrite (filter_none sel (rng (N.to_nat (k - a)) a)) by (intros x X; apply in_rng in X; apply K5; lia). cbn [app rng filter].
        replace (a + N.of_nat (N.to_nat (k - a))) with k by lia. rewrite K4. cbn [map]. rewrite K3. reflexivity.
    Qed.
    Lemma all_ok : get_all K hashfn eqfn h k0 = HtOk (enum 0).
    Proof.
      unfold get_all, getfirst. destruct (firstval_ok t Ht rehash h els C hash z Hz Hz0 Hzl) as (c & Ec & Fc). rewrite Ec. cbn [ht_bind].
      unfold getmatch. destruct (match_sel (fuel_of h) 0 c Fc) as (r & Er & Fr); [pose proof fuelz; lia|]. rewrite Er. cbn [ht_bind].
      apply rest_ok; [exact Fr|]. pose proof fuelz. lia.
    Qed.
    Lemma enum_perm : Permutation (enum 0) (filter cmp els).
    Proof.
      pose proof (size_pos h) as Hs. pose proof (co_len _ _ _ _ C) as Hl.
      set (F := fun e => valid e && eqfn (raw h e) k0).
      assert (SF : forall k, k < size h -> F (slot k) = true -> k < z /\ hit h hash k = true).
      { intros k Hk E. unfold F in E. apply andb_true_iff in E as [E1 E2]. apply eqkey in E2.
        destruct (member_hit t Ht rehash h els C hash z Hz Hz0 Hzl ((bucket h hash + k) mod size h)) as (k' & A1 & A2 & A3).
        - apply N.mod_lt. lia.
        - exact E1.
        - unfold rh, elem_hash. rewrite E2. reflexivity.
        - assert (k = k') by (apply (mod_inj (size h) Hs (bucket h hash)); [exact Hk|lia|exact A2]). subst k'. auto. }
      assert (FS : forall k, k < z -> F (slot k) = sel k).
      { intros k Hk. unfold sel. destruct (F (slot k)) eqn:E.
        - destruct (SF k ltac:(lia) E) as [_ ->]. unfold F in E. apply andb_true_iff in E as [_ ->]. reflexivity.
        - symmetry. apply not_true_is_false. intros E'. apply andb_true_iff in E' as [E1 E2].
          pose proof (hit_valid t Ht h hash z Hz Hz0 Hzl k Hk E1) as V. unfold F in E. rewrite V, E2 in E. discriminate E. }
      assert (P : Permutation (map (fun k => (bucket h hash + k) mod size h) (rng (N.to_nat (size h)) 0)) (rng (N.to_nat (size h)) 0)).
      { apply NoDup_Permutation_bis.
        - assert (G : forall l, NoDup l -> (forall x, In x l -> x < size h) -> NoDup (map (fun k => (bucket h hash + k) mod size h) l)).
          { induction l as [|x l IH]; intros D B; cbn; [constructor|]. inversion D; subst. constructor.
            - intros I. apply in_map_iff in I as (y & E & I). apply (mod_inj (size h) Hs) in E; [subst; contradiction| |]; apply B; [now right|now left].
            - apply IH; [assumption|]. intros y Y. apply B. now right. }
          apply G; [apply rng_nodup|]. intros x X. apply in_rng in X. lia.
        - rewrite map_length, !rng_length. lia.
        - intros x X. apply in_map_iff in X as (k & <- & _). apply in_rng. pose proof (N.mod_lt (bucket h hash + k) (size h)). lia. }
      assert (Q : Permutation (map (fun k => slot k) (rng (N.to_nat (size h)) 0)) (h_table h)).
      { pose proof (table_rng (h_table h)) as R. unfold len in Hl. replace (length (h_table h)) with (N.to_nat (size h)) in R by lia.
        rewrite <- (map_map (fun k => (bucket h hash + k) mod size h) (get (h_table h))).
        apply (Permutation_trans (l' := map (get (h_table h)) (rng (N.to_nat (size h)) 0))); [|rewrite R; apply Permutation_refl]. apply Permutation_map. exact P. }
      apply Permutation_sym. eapply Permutation_trans; [apply filter_perm; exact (co_els _ _ _ _ C)|].
      rewrite filter_mapped, filter_twice. eapply Permutation_trans; [apply Permutation_map, filter_perm, Permutation_sym; exact Q|].
      rewrite filter_mapped, map_map.
      replace (N.to_nat (size h)) with (N.to_nat z + N.to_nat (size h - z))%nat by lia. rewrite rng_app, filter_app.
      rewrite (filter_none _ (rng (N.to_nat (size h - z)) (0 + N.of_nat (N.to_nat z)))).
      2: { intros x X. apply in_rng in X. apply not_true_is_false. intros E. destruct (SF x ltac:(lia) E). lia. }
      rewrite app_nil_r. unfold enum. rewrite N.sub_0_r.
      rewrite (filter_ext_in _ sel); [apply Permutation_refl|]. intros k I. apply in_rng in I. apply (FS k). lia.
    Qed.
  End LOOK.
  Lemma all_state : forall h els, state_ok t rehash h els -> exists l, get_all K hashfn eqfn h k0 = HtOk l /\ Permutation l (filter cmp els).
  Proof.
    intros h els [[-> ->]|I].
    - exists []. split; [|constructor]. unfold get_all, getfirst, firstval, val, fuel_of, bucket. rewrite mask_mod.
      replace (hash mod size ht_init) with 0; [reflexivity|]. change (size ht_init) with 1. now rewrite N.mod_1_r.
    - pose proof (in_core _ _ _ _ I) as C. destruct (probe_end t Ht rehash h els hash C (inv_room t Ht rehash h els I)) as (z & Z1 & Z2 & Z3).
      exists (enum h z 0). split; [exact (all_ok h els C z Z1 Z2 Z3)|exact (enum_perm h els C z Z1 Z2 Z3)].
  Qed.
  Lemma del_state : forall h els, state_ok t rehash h els ->
    exists h' r, delkey K keyof hashfn eqfn h k0 = HtOk (h', r) /\
      if r then exists p els', keyof p = k0 /\ Permutation els (p :: els') /\ shows rehash h' els'
      else h' = h /\ forall p, In p els -> keyof p <> k0.
  Proof.
    intros h els S0. destruct (shows_ok t Ht rehash h els S0) as (_ & _ & G). destruct (G hash cmp) as (e & Ee & Fe).
    unfold delkey, get_key. rewrite Ee. cbn [ht_bind]. destruct e as [p|].
    - destruct Fe as (I & Ep). destruct (del_ok t Ht rehash h els p S0) as [(B1 & _)|(h1 & els1 & B1 & B2 & B3 & _)]; [contradiction|].
      rewrite B1. exists h1, true. split; [reflexivity|]. exists p, els1. split; [apply eqkey; exact Ep|]. split; [exact B2|].
      apply (shows_ok t Ht). right. exact B3.
    - exists h, false. split; [reflexivity|]. split; [reflexivity|]. intros p I E. specialize (Fe p I).
      apply eqkey in E. cbn beta in Fe. rewrite Fe in E; [discriminate E|]. unfold rh, elem_hash. apply eqkey in E. rewrite E. reflexivity.
  Qed.
End TOP.
Theorem typed : forall K (keyof : N -> K) hashfn eqfn, (forall p k, eqfn p k = true <-> keyof p = k) ->
  forall t os h, 1 <= t <= 63 -> (h = ht_init \/ exists expect, h = fst (ht_init_sized true expect)) ->
  Forall (fun o => top_is t (op_ptr o)) os -> N.of_nat (length os) <= 805306368 ->
  exists h' rs c, run_ops (elem_hash K keyof hashfn) os h = HtOk (h', rs) /\ explains os rs [] c /\
    forall k,
      (exists l, get_all K hashfn eqfn h' k = HtOk l /\ Permutation l (filter (fun p => eqfn p k) c)) /\
      exists h'' r, delkey K keyof hashfn eqfn h' k = HtOk (h'', r) /\
        if r then exists p c', keyof p = k /\ Permutation c (p :: c') /\ shows (elem_hash K keyof hashfn) h'' c'
        else h'' = h' /\ forall p, In p c -> keyof p <> k.
Proof.
  intros K keyof hashfn eqfn EK t os h [Ht1 Ht2] Hh Ho Hl. set (rehash := elem_hash K keyof hashfn).
  assert (Hst : state_ok t rehash h []).
  { destruct Hh as [-> |(expect & ->)]; [left; auto|now apply sized_ok]. }
  destruct (run_ok t Ht1 rehash os h [] Ht2 Hst Ho) as (h' & rs & c & E1 & E2 & E3).
  { cbn [length]. lia. }
  exists h', rs, c. split; [exact E1|]. split; [exact E2|]. intros k. split.
  - exact (all_state t Ht1 K keyof hashfn eqfn EK k h' c E3).
  - exact (del_state t Ht1 K keyof hashfn eqfn EK k h' c E3).
Qed.
