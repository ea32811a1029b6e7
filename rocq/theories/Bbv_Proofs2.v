(** Basic-block vectors: the loop over the records. *)
Require Import NArith ZArith Arith List Bool Lia Permutation.
Require Import ZifyBool ZifyN ZifyNat.
Require Import Verif.Word Verif.Matrix_Model Verif.Matrix_Spec Verif.Matrix_Proofs.
Require Import Verif.Bbv_Model Verif.Bbv_Spec Verif.Bbv_Proofs.
Import ListNotations.
Local Open Scope N_scope.

Section RUN.
  Variable junk : nat -> N.
  Variable walk : list obj -> list obj.
  Hypothesis Hwalk : forall l, Permutation (walk l) l.
  Variables rows0 cols0 period P : N.
  Hypothesis Hp : P = N.max period 1.
  Hypothesis Hp64 : period < 2 ^ 64.
  Hypothesis Hr0 : rows0 <> 0.
  Hypothesis Hc0 : cols0 <> 0.
  Notation weight := (weight P).
  Notation seen := (seen P).
  Notation vector := (vector P).
  Notation nblocks ks := (N.of_nat (length (firsts (map k_addr ks)))).

  Lemma P_pos : P <> 0.
  Proof. clear - Hp. lia. Qed.
  Lemma P_le : P <= period \/ P = 1.
  Proof. clear - Hp. lia. Qed.
  Lemma P_64 : P < 2 ^ 64.
  Proof. clear - Hp Hp64. change (2 ^ 64) with 18446744073709551616 in *. lia. Qed.
  Lemma P_ge : period <= P.
  Proof. clear - Hp. lia. Qed.
  Definition contents (ks : list block) (I : N) (i c : N) : N := if i <? I then vector ks i c else 0.
  Record inv (t : N) (ks : list block) (op : list rec) (s : bbv) : Prop := mk_inv {
    i_insns : b_insns s = t mod P;
    i_interval : b_interval s = t / P;
    i_ea : b_ea s = match op with [] => MINUS1 | r :: _ => fst r end;
    i_size : b_size s = N.of_nat (length op) mod 2 ^ 32;
    i_objs : objs_ok P ks (t / P) (b_objs s);
    i_next : b_next s = nblocks ks;
    i_past : forall k, In k ks -> k_end k < t;
    i_matrix : exists rows cols, holds (b_matrix s) rows cols (contents ks (t / P)) /\
      N.max rows0 (t / P) <= rows /\ rows <= N.max rows0 (2 * (t / P)) /\
      N.max cols0 (seen ks (t / P)) <= cols /\ cols <= N.max cols0 (2 * seen ks (t / P)) /\
      forall i c, i < t / P -> cols <= c -> vector ks i c = 0
  }.

  Lemma div_step : forall t, (t + 1) mod P = 0 -> (t + 1) / P = t / P + 1 /\ t mod P + 1 = P.
  Proof.
    intros t H. pose proof P_pos as P0.
    pose proof (N.div_mod (t + 1) P P0) as E1. pose proof (N.div_mod t P P0) as E2.
    pose proof (N.mod_lt t P P0) as L. rewrite H in E1.
    assert (X : P * ((t + 1) / P) = P * (t / P) + (t mod P + 1)) by lia.
    assert (Y : t mod P + 1 = P).
    { destruct (N.eq_dec (t mod P + 1) P) as [|Nq]; [assumption|]. exfalso.
      assert ((P * (t / P) + (t mod P + 1)) mod P = t mod P + 1).
      { rewrite N.mul_comm, N.add_comm, N.mod_add by exact P0. apply N.mod_small. lia. }
      rewrite <- X, N.mul_comm, N.mod_mul in H0 by exact P0. lia. }
    split; [|exact Y]. rewrite Y in X. replace (P * (t / P) + P) with (P * (t / P + 1)) in X by lia.
    now apply N.mul_cancel_l in X.
  Qed.
  Lemma div_same : forall t, (t + 1) mod P <> 0 -> (t + 1) / P = t / P /\ (t + 1) mod P = t mod P + 1 /\ t mod P + 1 < P.
  Proof.
    intros t H. pose proof P_pos as P0.
    pose proof (N.div_mod t P P0) as E2. pose proof (N.mod_lt t P P0) as L.
    destruct (N.eq_dec (t mod P + 1) P) as [Y|Y].
    - exfalso. apply H. replace (t + 1) with ((t / P + 1) * P) by lia. apply N.mod_mul. exact P0.
    - assert (E : t + 1 = P * (t / P) + (t mod P + 1)) by lia.
      assert (L2 : t mod P + 1 < P) by lia.
      split; [symmetry; exact (N.div_unique (t + 1) P (t / P) (t mod P + 1) L2 E)|].
      split; [symmetry; exact (N.mod_unique (t + 1) P (t / P) (t mod P + 1) L2 E)|exact L2].
  Qed.

  (** The end of an interval *)
  Lemma reset_ok : forall s t ks I, I = t / P ->
    b_interval s = I -> objs_ok P ks I (b_objs s) -> b_next s = nblocks ks ->
    (forall k, In k ks -> k_end k / P < I + 1) ->
    (exists rows cols, holds (b_matrix s) rows cols (contents ks I) /\
      N.max rows0 I <= rows /\ rows <= N.max rows0 (2 * I) /\
      N.max cols0 (seen ks I) <= cols /\ cols <= N.max cols0 (2 * seen ks I) /\
      forall i c, i < I -> cols <= c -> vector ks i c = 0) ->
    seen ks (I + 1) <= 2 * N.max cols0 (seen ks I) ->
    N.max rows0 (2 * (I + 1)) * N.max cols0 (2 * nblocks ks) < 2 ^ 61 ->
    exists m, reset_vector junk walk s =
      MOk (mk_bbv (map (fun o => mk_obj (o_addr o) 0 (o_id o)) (b_objs s)) (b_next s) m (I + 1)
                  (b_ea s) (b_size s) (b_insns s)) /\
    exists rows cols, holds m rows cols (contents ks (I + 1)) /\
      N.max rows0 (I + 1) <= rows /\ rows <= N.max rows0 (2 * (I + 1)) /\
      N.max cols0 (seen ks (I + 1)) <= cols /\ cols <= N.max cols0 (2 * seen ks (I + 1)) /\
      forall i c, i < I + 1 -> cols <= c -> vector ks i c = 0.
  Proof.
    intros s t ks I _ Hi Ho Hn Hk (rows & cols & Hm & R1 & R2 & C1 & C2 & Hz) Hg Hf.
    pose proof (seen_all P ks (I + 1) Hk) as Hs.
    pose proof (seen_mono P ks I) as Hmono.
    set (n := nblocks ks) in *. rewrite Hs in *.
    set (R := N.max rows0 (2 * (I + 1))) in *. set (C := N.max cols0 (2 * n)) in *.
    set (rows' := if rows <=? I then 2 * rows else rows).
    set (cols' := if cols <=? n then 2 * cols else cols).
    assert (RR : rows <= R /\ rows' <= R /\ I < rows' /\ rows <= rows').
    { unfold rows', R. destruct (N.leb_spec rows I); lia. }
    assert (CC : cols <= C /\ cols' <= C /\ n <= cols' /\ cols <= cols').
    { unfold cols', C. destruct (N.leb_spec cols n); lia. }
    destruct RR as (RR1 & RR2 & RR3 & RR4). destruct CC as (CC1 & CC2 & CC3 & CC4).
    assert (B1 : rows * cols' < 2 ^ 61) by (eapply N.le_lt_trans; [|exact Hf]; now apply N.mul_le_mono).
    assert (B2 : rows' * cols' < 2 ^ 61) by (eapply N.le_lt_trans; [|exact Hf]; now apply N.mul_le_mono).
    assert (Small : forall a b, a <> 0 -> a * b < 2 ^ 61 -> b < 2 ^ 64).
    { intros a b Ha Hab. apply N.le_lt_trans with (a * b); [|eapply N.lt_trans; [exact Hab|reflexivity]].
      clear - Ha. rewrite <- (N.mul_1_l b) at 1. apply N.mul_le_mono_r. lia. }
    assert (S1 : exists m1, (if m_cols (b_matrix s) <=? b_next s
         then m_resize junk (b_matrix s) (m_rows (b_matrix s)) (u64 (m_cols (b_matrix s) * 2)) else MOk (b_matrix s)) = MOk m1 /\
         holds m1 rows cols' (contents ks I)).
    { pose proof Hm as (M1 & M2 & _). rewrite M1, M2, Hn. unfold cols' in *. fold n.
      destruct (N.leb_spec cols n) as [L|L].
      - replace (u64 (cols * 2)) with (2 * cols).
        2:{ unfold u64. change w64 with (2 ^ 64). rewrite N.mod_small; [lia|].
            replace (cols * 2) with (2 * cols) by lia. apply (Small rows); [lia|exact B1]. }
        destruct (resize_ok junk (b_matrix s) rows cols (contents ks I) rows (2 * cols) Hm B1 ltac:(lia)) as (m1 & E & H).
        exists m1. split; [exact E|]. eapply holds_ext; [|exact H]. intros r c Hr Hc. unfold resized, contents.
        destruct (N.ltb_spec r rows); [|lia]. cbn [andb].
        destruct (N.ltb_spec c cols) as [_|Lc]; [reflexivity|].
        destruct (N.ltb_spec r I); [|reflexivity]. symmetry. now apply Hz.
      - exists (b_matrix s). split; [reflexivity|exact Hm]. }
    destruct S1 as (m1 & E1 & H1).
    assert (S2 : exists m2, (if m_rows m1 <=? b_interval s
         then m_resize junk m1 (u64 (m_rows m1 * 2)) (m_cols m1) else MOk m1) = MOk m2 /\
         holds m2 rows' cols' (contents ks I)).
    { pose proof H1 as (M1 & M2 & _). rewrite M1, M2, Hi. unfold rows' in *.
      destruct (N.leb_spec rows I) as [L|L].
      - replace (u64 (rows * 2)) with (2 * rows).
        2:{ unfold u64. change w64 with (2 ^ 64). rewrite N.mod_small; [lia|].
            replace (rows * 2) with (2 * rows) by lia. apply (Small cols'); [lia|]. now rewrite N.mul_comm. }
        destruct (resize_ok junk m1 rows cols' (contents ks I) (2 * rows) cols' H1 B2) as (m2 & E & H).
        { intros _. clear - RR3 CC4 C1 Hc0. intro Z. apply N.eq_mul_0 in Z. lia. }
        exists m2. split; [exact E|]. eapply holds_ext; [|exact H]. intros r c Hr Hc. unfold resized, contents.
        destruct (N.ltb_spec c cols'); [|lia]. rewrite andb_true_r.
        destruct (N.ltb_spec r rows) as [_|Lc]; [reflexivity|].
        destruct (N.ltb_spec r I); [lia|reflexivity].
      - exists m1. split; [reflexivity|exact H1]. }
    destruct S2 as (m2 & E2 & H2).
    pose proof Ho as [O1 O2].
    assert (Obj : forall o, In o (b_objs s) -> exists j a, nth_error (firsts (map k_addr ks)) j = Some a /\
        o = mk_obj a (weight ks I a) (N.of_nat j)).
    { intros o Hin. apply In_nth_error in Hin. destruct Hin as (j & Ej).
      destruct (nth_error (firsts (map k_addr ks)) j) as [a|] eqn:Ea.
      - exists j, a. split; [exact Ea|]. rewrite (O2 j a Ea) in Ej. now injection Ej.
      - exfalso. apply nth_error_None in Ea. assert (j < length (b_objs s))%nat by (apply nth_error_Some; congruence). lia. }
    assert (Vj : forall j a, nth_error (firsts (map k_addr ks)) j = Some a -> vector ks I (N.of_nat j) = weight ks I a).
    { intros j a Ea. unfold Bbv_Spec.vector. rewrite Nat2N.id, Ea. reflexivity. }
    destruct (store_ok (vector ks I) I rows' cols' (walk (b_objs s)) m2 _ H2 RR3) as (m3 & E3 & H3).
    { intros o Hin. apply (Permutation_in _ (Hwalk _)) in Hin. destruct (Obj o Hin) as (j & a & Ea & ->).
      cbn [o_id o_count]. rewrite (Vj j a Ea). split; [|reflexivity].
      assert (j < length (firsts (map k_addr ks)))%nat by (apply nth_error_Some; congruence).
      unfold n in CC3. lia. }
    exists m3. split.
    { unfold reset_vector. cbv zeta. rewrite E1. cbn [m_bind]. rewrite E2. cbn [m_bind]. rewrite Hi, E3. cbn [m_bind].
      do 2 f_equal. unfold add64. change w64 with (2 ^ 64). apply N.mod_small.
      assert (X : rows' < 2 ^ 64).
      { apply (Small cols'); [clear - CC4 C1 Hc0; lia|]. now rewrite N.mul_comm. }
      clear - X RR3. lia. }
    exists rows', cols'. split.
    - eapply holds_ext; [|exact H3]. intros r c Hr Hc. unfold contents.
      destruct (N.eqb_spec r I) as [-> |Nr]; cbn [andb].
      + destruct (N.ltb_spec I (I + 1)); [|lia]. destruct (N.ltb_spec I I); [lia|].
        destruct (existsb _ (walk (b_objs s))) eqn:Ex; [reflexivity|].
        unfold Bbv_Spec.vector. destruct (nth_error (firsts (map k_addr ks)) (N.to_nat c)) as [a|] eqn:Ea; [|reflexivity].
        destruct (N.eq_dec (weight ks I a) 0) as [Z|Z]; [symmetry; exact Z|]. exfalso.
        assert (X : existsb (fun o => (o_id o =? c) && negb (o_count o =? 0)) (walk (b_objs s)) = true).
        { apply existsb_exists. exists (mk_obj a (weight ks I a) (N.of_nat (N.to_nat c))). split.
          - apply (Permutation_in _ (Permutation_sym (Hwalk _))). eapply nth_error_In. apply O2. exact Ea.
          - cbn [o_id o_count]. rewrite N2Nat.id, N.eqb_refl. cbn [andb].
            destruct (N.eqb_spec (weight ks I a) 0); [contradiction|reflexivity]. }
        congruence.
      + destruct (N.ltb_spec r I), (N.ltb_spec r (I + 1)); try reflexivity; lia.
    - fold R. fold C. split; [clear - RR3 RR4 R1; lia|]. split; [exact RR2|].
      split; [clear - C1 CC3 CC4; lia|]. split; [exact CC2|].
      intros i c Li Lc. destruct (N.eq_dec i I) as [-> |Ni].
      + unfold Bbv_Spec.vector. rewrite (proj2 (nth_error_None _ _)); [reflexivity|].
        unfold n in CC3. clear - CC3 Lc. lia.
      + apply Hz; [clear - Li Ni; lia|clear - Lc CC4; lia].
  Qed.

  Definition next_blocks (t : N) (op : list rec) (ks : list block) (r : rec) : list block :=
    if snd r then ks ++ [mk_block t (start (op ++ [r])) (N.of_nat (length (op ++ [r])))] else ks.
  Definition next_open (op : list rec) (r : rec) : list rec := if snd r then [] else op ++ [r].

  Definition reset_cond (t : N) (ks' : list block) : Prop :=
    (t + 1) mod P = 0 -> seen ks' (t / P + 1) <= 2 * N.max cols0 (seen ks' (t / P)) /\
       N.max rows0 (2 * (t / P + 1)) * N.max cols0 (2 * nblocks ks') < 2 ^ 61.
  Lemma one_ok : forall t ks op s r, inv t ks op s ->
    Forall (fun r => fst r <> MINUS1) op -> fst r <> MINUS1 ->
    let ks' := next_blocks t op ks r in
    nblocks ks' < 2 ^ 32 ->
    reset_cond t ks' ->
    exists s', one junk walk period s r = MOk s' /\ inv (t + 1) ks' (next_open op r) s'.
  Proof.
    intros t ks op s r Hinv Hop Hr ks' Hnb Hreset. destruct Hinv as [I1 I2 I3 I4 I5 I6 I7 I8].
    pose proof P_pos as P0.
    assert (Kend : forall k, In k ks' -> k_end k < t + 1).
    { intros k Hk. unfold ks', next_blocks in Hk. destruct (snd r).
      - apply in_app_iff in Hk. destruct Hk as [Hk|[<-|[]]]; [specialize (I7 k Hk); lia|]. cbn [k_end]. lia.
      - specialize (I7 k Hk). lia. }
    assert (Kdiv : forall k, In k ks' -> k_end k / P < t / P + 1).
    { intros k Hk. specialize (Kend k Hk). assert (k_end k / P <= t / P) by (apply N.div_le_mono; lia). lia. }
    set (ea := if b_ea s =? MINUS1 then fst r else b_ea s).
    assert (Eea : ea = start (op ++ [r])).
    { unfold ea. rewrite I3. destruct op as [|x op]; [reflexivity|].
      pose proof (Forall_inv Hop) as Hx. cbn beta in Hx. cbn [app start].
      destruct (N.eqb_spec (fst x) MINUS1); [contradiction|reflexivity]. }
    assert (Esz : u32 (b_size s + 1) = N.of_nat (length (op ++ [r])) mod 2 ^ 32).
    { rewrite I4, app_length. cbn [length]. unfold u32. change w32 with (2 ^ 32).
      rewrite N.add_mod_idemp_l by discriminate. f_equal. lia. }
    (* the block *)
    assert (S2 : exists s2, (if snd r then
        let u := add_basic_block (mk_bbv (b_objs s) (b_next s) (b_matrix s) (b_interval s) ea (u32 (b_size s + 1)) (b_insns s)) ea (u32 (b_size s + 1)) in
        mk_bbv (b_objs u) (b_next u) (b_matrix u) (b_interval u) MINUS1 0 (b_insns u)
        else mk_bbv (b_objs s) (b_next s) (b_matrix s) (b_interval s) ea (u32 (b_size s + 1)) (b_insns s)) = s2 /\
      b_insns s2 = t mod P /\ b_interval s2 = t / P /\
      b_ea s2 = match next_open op r with [] => MINUS1 | r :: _ => fst r end /\
      b_size s2 = N.of_nat (length (next_open op r)) mod 2 ^ 32 /\
      objs_ok P ks' (t / P) (b_objs s2) /\ b_next s2 = nblocks ks' /\ b_matrix s2 = b_matrix s).
    { eexists. split; [reflexivity|]. unfold ks', next_blocks, next_open in *. rewrite Eea, Esz.
      destruct (snd r) eqn:Br; cbv zeta.
      - set (k := mk_block t (start (op ++ [r])) (N.of_nat (length (op ++ [r])))) in *.
        destruct (add_ok P (mk_bbv (b_objs s) (b_next s) (b_matrix s) (b_interval s) (start (op ++ [r])) (N.of_nat (length (op ++ [r])) mod 2 ^ 32) (b_insns s))
          ks (t / P) k I5 I6 Hnb eq_refl ltac:(apply N.mod_lt; discriminate)) as (objs & Ea & Ho).
        change (k_addr k) with (start (op ++ [r])) in Ea. change (k_len k) with (N.of_nat (length (op ++ [r]))) in Ea.
        rewrite Ea. cbn [b_objs b_next b_matrix b_interval b_ea b_size b_insns]. repeat split; auto; apply Ho.
      - cbn [b_objs b_next b_matrix b_interval b_ea b_size b_insns]. repeat split; auto; try (apply I5).
        destruct op; reflexivity. }
    destruct S2 as (s2 & E2 & J1 & J2 & J3 & J4 & J5 & J6 & J7).
    assert (JM : exists rows cols, holds (b_matrix s2) rows cols (contents ks' (t / P)) /\
      N.max rows0 (t / P) <= rows /\ rows <= N.max rows0 (2 * (t / P)) /\
      N.max cols0 (seen ks' (t / P)) <= cols /\ cols <= N.max cols0 (2 * seen ks' (t / P)) /\
      forall i c, i < t / P -> cols <= c -> vector ks' i c = 0).
    { rewrite J7. destruct I8 as (rows & cols & Hm & R1 & R2 & C1 & C2 & Hz). exists rows, cols.
      unfold ks', next_blocks.
      destruct (snd r); [|exact (conj Hm (conj R1 (conj R2 (conj C1 (conj C2 Hz)))))].
      rewrite seen_snoc by (cbn [k_end]; lia).
      split; [|split; [exact R1|split; [exact R2|split; [exact C1|split; [exact C2|]]]]].
      - eapply holds_ext; [|exact Hm]. intros a b _ _. unfold contents.
        destruct (N.ltb_spec a (t / P)); [|reflexivity].
        symmetry. apply vector_snoc; [auto|assumption].
      - intros i c Li Lc. rewrite vector_snoc; [now apply Hz|auto|assumption]. }
    unfold one. fold ea. cbv zeta in E2 |- *. rewrite E2.
    assert (Eins : add64 (b_insns s2) 1 = t mod P + 1).
    { rewrite J1. unfold add64. change w64 with (2 ^ 64). apply N.mod_small.
      pose proof (N.mod_lt t P P0). lia. }
    rewrite Eins. pose proof (N.mod_lt t P P0) as Lt.
    destruct (N.eq_dec ((t + 1) mod P) 0) as [Z|Z].
    - destruct (div_step t Z) as [D1 D2]. destruct (Hreset Z) as [Hg Hf].
      destruct (N.leb_spec period (t mod P + 1)) as [_|X]; [|lia].
      destruct (reset_ok (mk_bbv (b_objs s2) (b_next s2) (b_matrix s2) (b_interval s2) (b_ea s2) (b_size s2) (t mod P + 1))
        t ks' (t / P) eq_refl J2 J5 J6 Kdiv JM Hg Hf) as (m & Em & HM).
      rewrite Em. cbn [m_bind b_objs b_next b_matrix b_interval b_ea b_size b_insns].
      eexists. split; [reflexivity|].
      constructor; cbn [b_objs b_next b_matrix b_interval b_ea b_size b_insns]; rewrite ?D1; auto.
      destruct J5 as [O1 O2]. split; [now rewrite map_length|].
      intros j a Ea. rewrite nth_error_map, (O2 j a Ea). cbn [option_map o_addr o_id]. do 2 f_equal.
      symmetry. apply weight_zero. intros k Hk _ E. specialize (Kdiv k Hk). lia.
    - destruct (div_same t Z) as (D1 & D2 & D3).
      destruct (N.leb_spec period (t mod P + 1)) as [X|_]; [lia|].
      eexists. split; [reflexivity|].
      constructor; cbn [b_objs b_next b_matrix b_interval b_ea b_size b_insns]; rewrite ?D1; auto.
  Qed.

  (** The blocks of a trace, given the open block *)
  Fixpoint scan (t : N) (op : list rec) (recs : list rec) : list block :=
    match recs with
    | [] => []
    | r :: recs' =>
        (if snd r then [mk_block t (start (op ++ [r])) (N.of_nat (length (op ++ [r])))] else [])
        ++ scan (t + 1) (next_open op r) recs'
    end.
  Lemma scan_late : forall recs t op k, In k (scan t op recs) -> t <= k_end k.
  Proof.
    induction recs as [|r recs IH]; intros t op k H; [destruct H|]. cbn [scan] in H.
    apply in_app_iff in H. destruct H as [H|H].
    - destruct (snd r); [|destruct H]. destruct H as [<-|[]]. cbn. lia.
    - apply IH in H. lia.
  Qed.
  Lemma seen_app : forall i more ks, (forall k, In k more -> i <= k_end k / P) -> seen (ks ++ more) i = seen ks i.
  Proof.
    intro i. induction more as [|k more IH]; intros ks H; [now rewrite app_nil_r|].
    replace (ks ++ k :: more) with ((ks ++ [k]) ++ more) by (rewrite <- app_assoc; reflexivity).
    rewrite IH by (intros; apply H; now right). apply seen_snoc. apply H. now left.
  Qed.
  Lemma nblocks_app : forall ks more, nblocks ks <= nblocks (ks ++ more).
  Proof.
    intros ks more. enough (Nat.le (length (firsts (map k_addr ks))) (length (firsts (map k_addr (ks ++ more))))) by lia.
    apply firsts_incl. intros a Ha. rewrite map_app. apply in_or_app. now left.
  Qed.

  Lemma loop_ok : forall recs t ks op s, inv t ks op s ->
    Forall (fun r => fst r <> MINUS1) op -> Forall (fun r => fst r <> MINUS1) recs ->
    let all := ks ++ scan t op recs in
    let I := (t + N.of_nat (length recs)) / P in
    (forall i, t / P <= i -> i < I -> seen all (i + 1) <= 2 * N.max cols0 (seen all i)) ->
    fits rows0 cols0 all I ->
    exists s' op', loop junk walk period s recs = MOk s' /\ inv (t + N.of_nat (length recs)) all op' s'.
  Proof.
    induction recs as [|r recs IH]; intros t ks op s Hinv Hop Hr all I Hg Hf.
    - exists s, op. split; [reflexivity|]. unfold all. cbn [scan length]. rewrite app_nil_r.
      now replace (t + N.of_nat 0) with t by lia.
    - pose proof P_pos as P0.
      pose proof (Forall_inv Hr) as Hr1. cbn beta in Hr1. apply Forall_inv_tail in Hr.
      set (ks' := next_blocks t op ks r).
      assert (Eall : all = ks' ++ scan (t + 1) (next_open op r) recs).
      { unfold all, ks', next_blocks. cbn [scan]. destruct (snd r); [now rewrite app_assoc|reflexivity]. }
      assert (Et : t + N.of_nat (length (r :: recs)) = t + 1 + N.of_nat (length recs)) by (cbn [length]; lia).
      pose proof (nblocks_app ks' (scan (t + 1) (next_open op r) recs)) as Nb. rewrite <- Eall in Nb.
      assert (Late : forall i, i <= (t + 1) / P -> seen all i = seen ks' i).
      { intros i Hi. rewrite Eall. apply seen_app. intros k Hk. apply scan_late in Hk.
        eapply N.le_trans; [exact Hi|]. apply N.div_le_mono; lia. }
      assert (Ile : (t + 1) / P <= I).
      { unfold I. rewrite Et. apply N.div_le_mono; lia. }
      destruct Hf as [F1 F2].
      destruct (one_ok t ks op s r Hinv Hop Hr1) as (s1 & E1 & Hinv1); fold ks'.
      { clear - Nb F2. lia. }
      { intro Z. destruct (div_step t Z) as [D1 D2]. split.
        - rewrite <- !Late by lia. apply Hg; lia.
        - eapply N.le_lt_trans; [|exact F1]. apply N.mul_le_mono; lia. }
      cbn [loop]. rewrite E1. cbn [m_bind]. rewrite Et. rewrite Eall.
      apply IH.
      + exact Hinv1.
      + unfold next_open. destruct (snd r); [constructor|]. apply Forall_app. split; [exact Hop|]. now constructor.
      + exact Hr.
      + rewrite <- Eall, <- Et. fold I. intros i Hi1 Hi2. apply Hg; [|exact Hi2].
        eapply N.le_trans; [|exact Hi1]. apply N.div_le_mono; lia.
      + rewrite <- Eall, <- Et. fold I. now split.
  Qed.

  Lemma parse_ok : forall recs, Forall (fun r => fst r <> MINUS1) recs ->
    let ks := scan 0 [] recs in let I := N.of_nat (length recs) / P in
    grows_slowly P cols0 ks I -> fits rows0 cols0 ks I ->
    exists s op, parse junk walk rows0 cols0 period recs = MOk s /\ inv (N.of_nat (length recs)) ks op s.
  Proof.
    intros recs Hr ks I Hg Hf. unfold parse.
    pose proof P_pos as P0.
    assert (B : rows0 * cols0 < 2 ^ 61).
    { destruct Hf as [F _]. eapply N.le_lt_trans; [|exact F]. apply N.mul_le_mono; lia. }
    destruct (create_ok junk rows0 cols0 B) as (m & Em & Hm). rewrite Em. cbn [m_bind].
    destruct (loop_ok recs 0 [] [] (mk_bbv [] 0 m 0 MINUS1 0 0)) as (s & op & E & H).
    - constructor; cbn [b_objs b_next b_matrix b_interval b_ea b_size b_insns];
        rewrite ?N.mod_0_l, ?N.div_0_l by exact P0; try reflexivity.
      + split; [reflexivity|]. intros j a H. destruct j; discriminate H.
      + intros k [].
      + exists rows0, cols0. split.
        { eapply holds_ext; [|exact Hm]. intros i c _ _. unfold contents. destruct (N.ltb_spec i 0); [lia|reflexivity]. }
        assert (Z : seen [] 0 = 0) by reflexivity. rewrite Z. repeat split; try lia.
    - constructor.
    - exact Hr.
    - cbn [app]. replace (0 + N.of_nat (length recs)) with (N.of_nat (length recs)) by lia.
      intros i _ Hi. apply Hg. exact Hi.
    - cbn [app]. replace (0 + N.of_nat (length recs)) with (N.of_nat (length recs)) by lia. exact Hf.
    - exists s, op. cbn [app] in H. replace (0 + N.of_nat (length recs)) with (N.of_nat (length recs)) in H by lia.
      auto.
  Qed.

  (** The matrix given to the clustering *)
  Lemma vectors_ok : forall coin recs, Forall (fun r => fst r <> MINUS1) recs ->
    let ks := scan 0 [] recs in let I := N.of_nat (length recs) / P in
    grows_slowly P cols0 ks I -> fits rows0 cols0 ks I -> I <> 0 ->
    exists m, vectors junk walk rows0 cols0 period coin 0 recs = MOk m /\
      holds m I (nblocks ks + 1) (vector ks).
  Proof.
    intros coin recs Hr ks I Hg Hf HI.
    destruct (parse_ok recs Hr Hg Hf) as (s & op & E & [I1 I2 I3 I4 I5 I6 I7 I8]).
    unfold vectors. rewrite E. cbn [m_bind]. fold ks in I5, I6, I7, I8. fold I in I2, I8.
    destruct I8 as (rows & cols & Hm & R1 & R2 & C1 & C2 & Hz).
    rewrite I2, I6. destruct Hf as [F1 F2].
    replace (u32 (nblocks ks + 1)) with (nblocks ks + 1).
    2:{ unfold u32. change w32 with (2 ^ 32). rewrite N.mod_small; [reflexivity|exact F2]. }
    destruct (resize_ok junk (b_matrix s) rows cols _ I (nblocks ks + 1) Hm) as (m & Em & H).
    { eapply N.le_lt_trans; [|exact F1]. apply N.mul_le_mono; clear - Hc0; lia. }
    { intros _ Z. apply N.eq_mul_0 in Z. clear - Z HI. lia. }
    fold ks I. rewrite Em. cbn [m_bind]. rewrite N.eqb_refl. exists m. split; [reflexivity|].
    eapply holds_ext; [|exact H]. intros i c Hi Hc. unfold resized, contents.
    destruct (N.ltb_spec i rows) as [_|L]; [|exfalso; clear - L R1 Hi; lia]. cbn [andb].
    destruct (N.ltb_spec c cols).
    - destruct (N.ltb_spec i I) as [_|L]; [reflexivity|exfalso; clear - L Hi; lia].
    - symmetry. now apply Hz.
  Qed.
End RUN.
