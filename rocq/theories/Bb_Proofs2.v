(** Proofs about qtlib/bb.c: the dump. *)
Require Import NArith ZArith List Bool Permutation Lia Arith.
Require Import ZifyBool ZifyN ZifyNat.
Require Import Verif.Word Verif.Bb_Model Verif.Bb_Spec Verif.Bb_Proofs.
Import ListNotations.
Local Open Scope N_scope.

Lemma compare_ea_consistent : consistent bb_compare_ea.
Proof.
  split.
  - intros a b. unfold bb_compare_ea.
    destruct (b_ea a <? b_ea b) eqn:E1; destruct (b_ea b <? b_ea a) eqn:E2;
      destruct (b_size a <? b_size b) eqn:E3; destruct (b_size b <? b_size a) eqn:E4;
      try reflexivity; lia.
  - intros a b c. unfold bb_compare_ea.
    destruct (b_ea a <? b_ea b) eqn:E1; destruct (b_ea b <? b_ea a) eqn:E2;
      destruct (b_size a <? b_size b) eqn:E3; destruct (b_size b <? b_size a) eqn:E4;
    destruct (b_ea b <? b_ea c) eqn:F1; destruct (b_ea c <? b_ea b) eqn:F2;
      destruct (b_size b <? b_size c) eqn:F3; destruct (b_size c <? b_size b) eqn:F4;
      try lia;
    destruct (b_ea a <? b_ea c) eqn:G1; destruct (b_ea c <? b_ea a) eqn:G2;
      destruct (b_size a <? b_size c) eqn:G3; destruct (b_size c <? b_size a) eqn:G4; lia.
Qed.

Lemma compare_num_consistent : consistent bb_compare_num.
Proof.
  split.
  - intros a b. unfold bb_compare_num.
    generalize (bb_instruction_num a) (bb_instruction_num b). intros x y.
    destruct (b_valid a), (b_valid b); cbn [andb negb]; try reflexivity;
      destruct (y <? x) eqn:E1; destruct (x <? y) eqn:E2; try reflexivity; lia.
  - intros a b c. unfold bb_compare_num.
    generalize (bb_instruction_num a) (bb_instruction_num b) (bb_instruction_num c). intros x y z.
    destruct (b_valid a), (b_valid b), (b_valid c); cbn [andb negb]; try lia;
      destruct (y <? x) eqn:E1; destruct (x <? y) eqn:E2; try lia;
      destruct (z <? y) eqn:E3; destruct (y <? z) eqn:E4; try lia;
      destruct (z <? x) eqn:E5; destruct (x <? z) eqn:E6; lia.
Qed.

(** ** Closeness *)
Lemma close_spec : forall x y, x < 2 ^ 64 -> y < 2 ^ 64 ->
  match hits_close x y with
  | Some true => near32 x y
  | Some false => ~ near32 x y
  | None => ((Z.of_N x - Z.of_N y) mod 2 ^ 32 = 2 ^ 31)%Z
  end.
Proof.
  intros x y Hx Hy. unfold hits_close, s32, sub64.
  assert (E : (Z.of_N ((((x + w64 - y mod w64) mod w64) mod w32)) = (Z.of_N x - Z.of_N y) mod 2 ^ 32)%Z).
  { rewrite (N.mod_small y) by exact Hy.
    rewrite !N2Z.inj_mod, N2Z.inj_sub, N2Z.inj_add by (unfold w64 in *; lia).
    change (Z.of_N w64) with (2 ^ 64)%Z. change (Z.of_N w32) with (2 ^ 32)%Z.
    assert (D : (2 ^ 64 = 2 ^ 32 * 2 ^ 32)%Z) by reflexivity. rewrite D.
    rewrite Z.rem_mul_r by lia.
    rewrite (Z.mul_comm (2 ^ 32) (_ mod _)), Z.mod_add by lia. rewrite Z.mod_mod by lia.
    replace (Z.of_N x + 2 ^ 32 * 2 ^ 32 - Z.of_N y)%Z
      with (Z.of_N x - Z.of_N y + 2 ^ 32 * 2 ^ 32)%Z by lia.
    rewrite Z.mod_add by lia. reflexivity. }
  set (u := ((x + w64 - y mod w64) mod w64) mod w32) in *. clearbody u.
  assert (Hu : (0 <= Z.of_N u < 2 ^ 32)%Z) by (rewrite E; apply Z.mod_pos_bound; lia).
  assert (Q : exists q, (Z.of_N x - Z.of_N y = 2 ^ 32 * q + Z.of_N u)%Z).
  { exists ((Z.of_N x - Z.of_N y) / 2 ^ 32)%Z. rewrite E. apply Z.div_mod. lia. }
  destruct Q as [q Q].
  destruct (u <? 2147483648) eqn:Eu.
  - destruct (Z.eqb (Z.of_N u) (-2147483648)) eqn:E1; [lia|].
    destruct (Z.ltb (Z.abs (Z.of_N u)) 4) eqn:E2.
    + exists (Z.of_N u). split; [lia|].
      replace (Z.of_N x - Z.of_N y - Z.of_N u)%Z with (q * 2 ^ 32)%Z by lia.
      apply Z.mod_mul. lia.
    + intros (d & Hd & Hm). apply Z.mod_divide in Hm; [|lia]. destruct Hm as [p Hm]. lia.
  - destruct (Z.eqb (Z.of_N u - 4294967296) (-2147483648)) eqn:E1.
    { rewrite <- E. lia. }
    destruct (Z.ltb (Z.abs (Z.of_N u - 4294967296)) 4) eqn:E2.
    + exists (Z.of_N u - 2 ^ 32)%Z. split; [lia|].
      replace (Z.of_N x - Z.of_N y - (Z.of_N u - 2 ^ 32))%Z with ((q + 1) * 2 ^ 32)%Z by lia.
      apply Z.mod_mul. lia.
    + intros (d & Hd & Hm). apply Z.mod_divide in Hm; [|lia]. destruct Hm as [p Hm]. lia.
Qed.

Lemma near32_near : forall x y, x < 2 ^ 31 -> y < 2 ^ 31 -> (near32 x y <-> near x y).
Proof.
  intros x y Hx Hy. unfold near32, near. split.
  - intros (d & Hd & Hm). apply Z.mod_divide in Hm; [|lia]. destruct Hm as [p Hm]. lia.
  - intros H. exists (Z.of_N x - Z.of_N y)%Z. split; [lia|].
    now rewrite Z.sub_diag.
Qed.

(** ** The loop *)
Fixpoint increasing (from : N) (l : list N) : Prop :=
  match l with [] => True | a :: l' => from < a /\ increasing a l' end.

Lemma increasing_gt : forall l from a, increasing from l -> In a l -> from < a.
Proof.
  induction l as [|b l IH]; intros from a H Hin; [destruct Hin|].
  destruct H as [H1 H2]. destruct Hin as [->|Hin]; [exact H1|].
  apply (IH b a H2) in Hin. lia.
Qed.

Lemma span_snoc : forall n ea, span ea (S n) = span ea n ++ [ea + 4 * N.of_nat n].
Proof.
  induction n as [|n IH]; intros ea.
  - cbn. now rewrite N.add_0_r.
  - change (span ea (S (S n))) with (ea :: span (ea + 4) (S n)).
    rewrite IH. cbn [span app]. f_equal. f_equal. f_equal. lia.
Qed.

(** [h]: hit count by address. *)
Definition good (h : N -> N) (b : bbe) : Prop :=
  b_valid b = true /\ 0 < b_size b /\ b_hit b = h (b_ea b) /\
  Forall (fun a => near32 (h a) (b_hit b)) (tl (block_addrs b)).
Definition endof (b : bbe) : N := b_ea b + 4 * b_size b.

Lemma loop_ok : forall h l lead ea lead' os,
  (forall a, h a < 2 ^ 64) ->
  coalesce_loop lead ea l = BOk (lead', os) ->
  good h lead -> endof lead = ea + 4 -> ea < 2 ^ 64 ->
  b_size lead + N.of_nat (length l) < 2 ^ 64 ->
  Forall (fun t => b_valid t = true /\ b_size t = 1 /\ b_hit t = h (b_ea t) /\ b_ea t < 2 ^ 64) l ->
  increasing ea (map b_ea l) ->
  let B := filter b_valid (lead' :: os) in
  Forall (good h) B /\
  flat_map block_addrs B = block_addrs lead ++ map b_ea l /\
  Forall (fun b => ea + 4 <= endof b) B /\
  (ea mod 4 = 0 -> Forall (fun t => b_ea t mod 4 = 0) l ->
   Forall (fun b => In (endof b) (map b_ea l) -> ~ near32 (h (endof b)) (b_hit b)) B).
Proof.
  intros h l lead ea lead' os Hh. revert lead ea lead' os.
  induction l as [|t l IH]; intros lead ea lead' os E G He Hea Hsz HF Hinc.
  - injection E as <- <-. cbn [filter]. rewrite (proj1 G). cbn [flat_map map].
    split; [constructor; [exact G|constructor]|]. split; [reflexivity|].
    split; [constructor; [lia|constructor]|].
    intros _ _. constructor; [intros []|constructor].
  - apply Forall_cons_iff in HF as [(Tv & Ts & Th & Tea) HF].
    cbn [map] in Hinc. destruct Hinc as [Hgt Hinc]. cbn [length] in Hsz.
    cbn [coalesce_loop] in E.
    assert (Gt : good h t).
    { split; [exact Tv|]. split; [lia|]. split; [exact Th|].
      unfold block_addrs. rewrite Ts. constructor. }
    (* the not-merged case *)
    assert (NM : match coalesce_loop t (b_ea t) l with
                 | BOk (t', os0) => BOk (lead, t' :: os0) | BErr e => BErr e end = BOk (lead', os) ->
            (b_ea t = ea + 4 -> ~ near32 (h (b_ea t)) (b_hit lead)) ->
            let B := filter b_valid (lead' :: os) in
            Forall (good h) B /\
            flat_map block_addrs B = block_addrs lead ++ map b_ea (t :: l) /\
            Forall (fun b => ea + 4 <= endof b) B /\
            (ea mod 4 = 0 -> Forall (fun t => b_ea t mod 4 = 0) (t :: l) ->
             Forall (fun b => In (endof b) (map b_ea (t :: l)) ->
                              ~ near32 (h (endof b)) (b_hit b)) B)).
    { intros E0 Hnn. destruct (coalesce_loop t (b_ea t) l) as [[t' os0]|e] eqn:Et; [|discriminate].
      injection E0 as <- <-.
      destruct (IH t (b_ea t) t' os0 Et Gt) as (A1 & A2 & A3 & A4); try assumption.
      { unfold endof. lia. } { lia. }
      cbn zeta in *. change (filter b_valid (lead :: t' :: os0))
        with (if b_valid lead then lead :: filter b_valid (t' :: os0) else filter b_valid (t' :: os0)).
      rewrite (proj1 G). split; [constructor; assumption|].
      split; [cbn [flat_map]; rewrite A2; unfold block_addrs at 2; rewrite Ts; reflexivity|].
      split; [constructor; [lia|]; eapply Forall_impl; [|exact A3]; cbn; intros; lia|].
      intros Hal HFal. apply Forall_cons_iff in HFal as [Hal1 HFal].
      constructor.
      - rewrite He. intros Hin. destruct Hin as [Hin|Hin].
        + rewrite <- Hin. apply Hnn. exact Hin.
        + exfalso. apply (increasing_gt _ _ _ Hinc) in Hin.
          assert (Hq1 := N.div_mod ea 4). assert (Hq2 := N.div_mod (b_ea t) 4). lia.
      - specialize (A4 Hal1 HFal). rewrite Forall_forall in A4 |- *.
        intros b Hb Hin. apply A4; [exact Hb|]. destruct Hin as [Hin|Hin]; [|exact Hin].
        exfalso.
        rewrite Forall_forall in A3. specialize (A3 b Hb). lia. }
    destruct (b_ea t =? add64 ea 4) eqn:Eadj.
    + assert (Eadj' : b_ea t = ea + 4).
      { unfold add64 in Eadj. apply N.eqb_eq in Eadj.
        destruct (N.lt_ge_cases (ea + 4) w64) as [Hw|Hw].
        - now rewrite N.mod_small in Eadj.
        - exfalso. assert ((ea + 4) mod w64 = ea + 4 - w64).
          { symmetry. apply N.mod_unique with 1; unfold w64 in *; lia. }
          unfold w64 in *; lia. }
      assert (CS := close_spec (b_hit t) (b_hit lead)).
      rewrite Th, (proj1 (proj2 (proj2 G))) in CS. specialize (CS (Hh _) (Hh _)).
      rewrite <- Th, <- (proj1 (proj2 (proj2 G))) in CS.
      destruct (hits_close (b_hit t) (b_hit lead)) as [[|]|] eqn:Ec; [| |discriminate].
      * (* merged *)
        set (lead1 := mk_bbe (b_ea lead) (u64 (b_size lead + 1)) (b_hit lead) (b_valid lead)) in *.
        assert (Hu : u64 (b_size lead + 1) = b_size lead + 1).
        { unfold u64. apply N.mod_small. unfold w64. lia. }
        destruct (coalesce_loop lead1 (b_ea t) l) as [[l1 os0]|e] eqn:Et; [|discriminate].
        injection E as <- <-.
        assert (Hba : block_addrs lead1 = block_addrs lead ++ [b_ea t]).
        { unfold block_addrs, lead1. cbn [b_ea b_size]. rewrite Hu.
          replace (N.to_nat (b_size lead + 1)) with (S (N.to_nat (b_size lead))) by lia.
          rewrite span_snoc. f_equal. f_equal. unfold endof in He. lia. }
        assert (G1 : good h lead1).
        { destruct G as (g1 & g2 & g3 & g4). split; [exact g1|].
          split; [subst lead1; cbn [b_size]; lia|]. split; [exact g3|].
          rewrite Hba. unfold block_addrs in *.
          destruct (N.to_nat (b_size lead)) eqn:En; [lia|]. cbn [span app tl] in *.
          apply Forall_app. split; [exact g4|]. constructor; [|constructor].
          subst lead1. cbn [b_hit]. rewrite <- Th. exact CS. }
        destruct (IH lead1 (b_ea t) l1 os0 Et G1) as (A1 & A2 & A3 & A4); try assumption.
        { subst lead1. unfold endof in *. cbn [b_ea b_size]. lia. }
        { subst lead1. cbn [b_size]. lia. }
        cbn zeta in *.
        assert (EB : filter b_valid (l1 :: mk_bbe (b_ea t) (b_size t) (b_hit t) false :: os0)
                     = filter b_valid (l1 :: os0)) by reflexivity.
        rewrite EB. split; [exact A1|]. split; [rewrite A2, Hba, <- app_assoc; reflexivity|].
        split; [eapply Forall_impl; [|exact A3]; cbn; intros; lia|].
        intros Hal HFal. apply Forall_cons_iff in HFal as [Hal1 HFal].
        specialize (A4 Hal1 HFal). rewrite Forall_forall in A4 |- *. intros b Hb Hin.
        apply A4; [exact Hb|]. destruct Hin as [Hin|Hin]; [|exact Hin]. exfalso.
        rewrite Forall_forall in A3. specialize (A3 b Hb). lia.
      * apply NM; [exact E|]. intros _. rewrite <- Th. exact CS.
    + apply NM; [exact E|]. intros Heq. exfalso.
      unfold add64 in Eadj. rewrite N.mod_small in Eadj by (unfold w64; lia). lia.
Qed.

Lemma loop_err : forall h l lead ea e,
  (forall a, h a < 2 ^ 64) ->
  coalesce_loop lead ea l = BErr e ->
  b_hit lead = h (b_ea lead) ->
  Forall (fun t => b_hit t = h (b_ea t)) l ->
  e = BAbs /\ exists x y, In x (map b_ea l) /\ In y (b_ea lead :: map b_ea l) /\
    ((Z.of_N (h x) - Z.of_N (h y)) mod 2 ^ 32 = 2 ^ 31)%Z.
Proof.
  intros h l lead ea e Hh. revert lead ea.
  induction l as [|t l IH]; intros lead ea E Hl HF; [discriminate|].
  apply Forall_cons_iff in HF as [Ht HF]. cbn [coalesce_loop] in E.
  assert (NM : match coalesce_loop t (b_ea t) l with
                 | BOk (t', os0) => BOk (lead, t' :: os0) | BErr e => BErr e end = BErr e ->
     e = BAbs /\ exists x y, In x (map b_ea (t :: l)) /\ In y (b_ea lead :: map b_ea (t :: l)) /\
       ((Z.of_N (h x) - Z.of_N (h y)) mod 2 ^ 32 = 2 ^ 31)%Z).
  { intros E0. destruct (coalesce_loop t (b_ea t) l) as [[t' os0]|e0] eqn:Et; [discriminate|].
    injection E0 as <-. destruct (IH t (b_ea t) Et Ht HF) as (-> & x & y & H1 & H2 & H3).
    split; [reflexivity|]. exists x, y. cbn [map]. split; [now right|]. split; [|exact H3].
    now right. }
  destruct (b_ea t =? add64 ea 4); [|now apply NM].
  assert (CS := close_spec (b_hit t) (b_hit lead)). rewrite Ht, Hl in CS.
  specialize (CS (Hh _) (Hh _)). rewrite <- Ht, <- Hl in CS.
  destruct (hits_close (b_hit t) (b_hit lead)) as [[|]|]; [|now apply NM|].
  - set (lead1 := mk_bbe _ _ _ _) in *.
    destruct (coalesce_loop lead1 (b_ea t) l) as [[t' os0]|e0] eqn:Et; [discriminate|].
    injection E as <-. destruct (IH lead1 (b_ea t) Et Hl HF) as (-> & x & y & H1 & H2 & H3).
    split; [reflexivity|]. exists x, y. cbn [map]. split; [now right|]. split; [|exact H3].
    destruct H2 as [<-|H2]; [now left|right; now right].
  - injection E as <-. split; [reflexivity|]. exists (b_ea t), (b_ea lead).
    split; [now left|]. split; [now left|]. rewrite <- Ht, <- Hl. exact CS.
Qed.

(** ** Sorting *)
Lemma ordered_impl : forall A (R S : A -> A -> Prop) l,
  (forall a b, In a l -> In b l -> R a b -> S a b) -> ordered R l -> ordered S l.
Proof.
  induction l as [|a l IH]; intros H HO; [exact I|]. destruct HO as [H1 H2]. split.
  - rewrite Forall_forall in *. intros b Hb. apply H; [now left|now right|]. now apply H1.
  - apply IH; [|exact H2]. intros x y Hx Hy. apply H; now right.
Qed.

Lemma ordered_increasing : forall l, NoDup (map b_ea l) ->
  ordered (fun a b => (bb_compare_ea a b <= 0)%Z) l ->
  match l with [] => True | a :: l' => increasing (b_ea a) (map b_ea l') end.
Proof.
  induction l as [|a l IH]; intros Hnd HO; [exact I|]. destruct HO as [H1 H2].
  cbn [map] in Hnd. inversion Hnd; subst. specialize (IH H4 H2).
  destruct l as [|b l]; [exact I|]. cbn [map increasing]. split; [|exact IH].
  apply Forall_cons_iff in H1 as [H1 _]. unfold bb_compare_ea in H1.
  assert (b_ea a <> b_ea b) by (intro Hx; apply H3; rewrite Hx; now left).
  destruct (b_ea a <? b_ea b) eqn:E1; [lia|].
  destruct (b_ea b <? b_ea a) eqn:E2; [|lia]. exfalso. lia.
Qed.

Lemma count_valid_filter : forall l,
  ordered (fun a b => (bb_compare_num a b <= 0)%Z) l ->
  firstn (count_valid l) l = filter b_valid l.
Proof.
  induction l as [|a l IH]; intros HO; [reflexivity|]. destruct HO as [H1 H2].
  cbn [count_valid filter]. destruct (b_valid a) eqn:Ea.
  - cbn [firstn]. now rewrite IH.
  - symmetry. assert (Hno : forall b, In b l -> b_valid b = false).
    { rewrite Forall_forall in H1. intros b Hb. specialize (H1 b Hb).
      unfold bb_compare_num in H1. rewrite Ea in H1. destruct (b_valid b); [|reflexivity].
      cbn in H1. exfalso. lia. }
    clear - Hno. induction l as [|b l IH]; [reflexivity|]. cbn [filter].
    rewrite Hno by (now left). apply IH. intros; apply Hno; now right.
Qed.

Lemma Permutation_filter : forall A (f : A -> bool) l l',
  Permutation l l' -> Permutation (filter f l) (filter f l').
Proof.
  intros A f l l' H. induction H; cbn.
  - constructor.
  - destruct (f x); [now constructor|assumption].
  - destruct (f x), (f y); try constructor; reflexivity.
  - etransitivity; eassumption.
Qed.

Definition hits (log : list N) (a : N) : N := occ a log mod 2 ^ 64.

(** What is printed, unconditionally. *)
Theorem dump_general : forall qs log s, sorter qs -> Forall (fun a => a < 2 ^ 64) log ->
  bb_run log = BOk s ->
  match bb_dump qs s with
  | BErr e => e = BAbs /\ exists x y, In x log /\ In y log /\
      ((Z.of_N (hits log x) - Z.of_N (hits log y)) mod 2 ^ 32 = 2 ^ 31)%Z
  | BOk B =>
      Permutation (flat_map block_addrs B) (firsts log) /\
      Forall (fun b => b_hit b = hits log (b_ea b) /\ 0 < b_size b /\
                       Forall (fun a => near32 (hits log a) (b_hit b)) (block_addrs b)) B /\
      ordered (fun a b => (b_size b * b_hit b) mod 2 ^ 64 <= (b_size a * b_hit a) mod 2 ^ 64) B /\
      (Forall (fun a => a mod 4 = 0) log ->
       Forall (fun b => In (endof b) log -> ~ near32 (hits log (endof b)) (b_hit b)) B)
  end.
Proof.
  intros qs log s HS H64 Hrun.
  assert (Hlen : N.of_nat (length (firsts log)) <= 2 ^ 30).
  { destruct (N.le_gt_cases (N.of_nat (length (firsts log))) (2 ^ 30)) as [|Hx]; [assumption|].
    exfalso. assert (E := proj2 (fails_iff log BOverflow) (conj eq_refl Hx)). congruence. }
  destruct (counts log Hlen) as (s' & E' & Hused & _).
  rewrite Hrun in E'. injection E' as <-.
  unfold bb_dump. rewrite Hused.
  destruct (HS bb_compare_ea (profile log) compare_ea_consistent) as [HP HO].
  set (L := qs bb_compare_ea (profile log)) in *.
  assert (Hadd : Permutation (map b_ea L) (firsts log)).
  { rewrite <- HP. unfold profile. rewrite map_map. cbn. now rewrite map_id. }
  assert (Hnd : NoDup (map b_ea L)).
  { eapply Permutation_NoDup; [symmetry; exact Hadd|apply firsts_nodup]. }
  assert (Hall : Forall (fun t => b_valid t = true /\ b_size t = 1 /\ b_hit t = hits log (b_ea t)
                                  /\ b_ea t < 2 ^ 64) L).
  { rewrite Forall_forall. intros t Ht.
    apply (Permutation_in t (Permutation_sym HP)) in Ht. unfold profile in Ht.
    apply in_map_iff in Ht as (a & <- & Ha). cbn. repeat split.
    rewrite Forall_forall in H64. apply H64. now apply firsts_in. }
  assert (Hinc := ordered_increasing L Hnd HO).
  assert (Hh : forall a, hits log a < 2 ^ 64) by (intros; apply N.mod_lt; lia).
  assert (HlenL : length L = length (firsts log)).
  { rewrite <- (map_length b_ea). now apply Permutation_length. }
  assert (Hin : forall a, In a (map b_ea L) <-> In a log).
  { intros a. rewrite <- (firsts_in log). split; apply Permutation_in; [exact Hadd|now symmetry]. }
  destruct L as [|t L'].
  - (* nothing logged *)
    cbn [bb_coalesce].
    destruct (HS bb_compare_num [] compare_num_consistent) as [P0 _].
    apply Permutation_nil in P0. rewrite P0.
    destruct (HS bb_compare_num [] compare_num_consistent) as [P1 _].
    apply Permutation_nil in P1. rewrite P1. cbn.
    split; [exact Hadd|]. repeat split; constructor.
  - cbn [bb_coalesce].
    apply Forall_cons_iff in Hall as [(Tv & Ts & Th & Tea) Hall].
    destruct (coalesce_loop t (b_ea t) L') as [[t' os]|e] eqn:El.
    + assert (Gt : good (hits log) t).
      { split; [exact Tv|]. split; [lia|]. split; [exact Th|].
        unfold block_addrs. rewrite Ts. constructor. }
      destruct (loop_ok (hits log) L' t (b_ea t) t' os Hh El Gt) as (A1 & A2 & A3 & A4);
        try assumption.
      { unfold endof. lia. }
      { cbn [length] in HlenL. lia. }
      cbn zeta in *. set (B := filter b_valid (t' :: os)) in *.
      destruct (HS bb_compare_num (t' :: os) compare_num_consistent) as [P2 O2].
      rewrite count_valid_filter by exact O2.
      set (l2 := filter b_valid (qs bb_compare_num (t' :: os))) in *.
      destruct (HS bb_compare_num l2 compare_num_consistent) as [P3 O3].
      assert (PB : Permutation B (qs bb_compare_num l2)).
      { rewrite <- P3. apply Permutation_filter. exact P2. }
      assert (Hga : Forall (good (hits log)) (qs bb_compare_num l2)).
      { rewrite Forall_forall in *. intros b Hb. apply A1.
        apply (Permutation_in b (Permutation_sym PB)). exact Hb. }
      split; [|split; [|split]].
      * rewrite <- (Permutation_flat_map block_addrs PB), A2.
        unfold block_addrs. rewrite Ts. exact Hadd.
      * eapply Forall_impl; [|exact Hga]. cbn. intros b (g1 & g2 & g3 & g4).
        split; [exact g3|]. split; [exact g2|].
        unfold block_addrs in *. destruct (N.to_nat (b_size b)) as [|n]; [constructor|].
        cbn [span tl] in *. constructor; [|exact g4]. rewrite g3.
        exists 0%Z. split; [lia|]. now rewrite Z.sub_diag.
      * eapply ordered_impl; [|exact O3]. cbn. intros a b Ha Hb Hc.
        rewrite Forall_forall in Hga.
        destruct (Hga a Ha) as (va & _). destruct (Hga b Hb) as (vb & _).
        unfold bb_compare_num in Hc. rewrite va, vb in Hc. cbn [andb negb] in Hc.
        unfold bb_instruction_num, u64 in Hc. change w64 with (2 ^ 64) in Hc.
        destruct ((b_size b * b_hit b) mod 2 ^ 64 <? (b_size a * b_hit a) mod 2 ^ 64) eqn:E1; [lia|].
        destruct ((b_size a * b_hit a) mod 2 ^ 64 <? (b_size b * b_hit b) mod 2 ^ 64) eqn:E2;
          [exfalso; lia|lia].
      * intros Hal. assert (Hal' : forall a, In a (map b_ea (t :: L')) -> a mod 4 = 0).
        { intros a Ha. rewrite Forall_forall in Hal. apply Hal. now apply Hin. }
        assert (A4' := A4 (Hal' (b_ea t) (or_introl eq_refl))).
        rewrite Forall_forall. intros b Hb HIn.
        apply (Permutation_in b (Permutation_sym PB)) in Hb.
        rewrite Forall_forall in A3. specialize (A3 b Hb).
        assert (HL : Forall (fun t => b_ea t mod 4 = 0) L').
        { rewrite Forall_forall. intros x Hx. apply Hal'. right. now apply in_map. }
        specialize (A4' HL). rewrite Forall_forall in A4'.
        apply (A4' b Hb). apply Hin in HIn. destruct HIn as [HIn|HIn]; [exfalso; lia|exact HIn].
    + destruct (loop_err (hits log) L' t (b_ea t) e Hh El Th) as (-> & x & y & H1 & H2 & H3).
      { eapply Forall_impl; [|exact Hall]. cbn. tauto. }
      split; [reflexivity|]. exists x, y.
      split; [apply Hin; now right|]. split; [apply Hin; exact H2|exact H3].
Qed.

(** With fewer than 2^31 instructions logged. *)
Lemma occ_le : forall a log, occ a log <= N.of_nat (length log).
Proof. intros. unfold occ. assert (H := count_occ_bound N.eq_dec a log). lia. Qed.

Theorem dump_small : forall qs log s, sorter qs -> Forall (fun a => a < 2 ^ 64) log ->
  N.of_nat (length log) < 2 ^ 31 -> bb_run log = BOk s ->
  exists B, bb_dump qs s = BOk B /\
    Permutation (flat_map block_addrs B) (firsts log) /\
    Forall (fun b => b_hit b = occ (b_ea b) log /\ 0 < b_size b /\
                     Forall (fun a => near (occ a log) (b_hit b)) (block_addrs b)) B /\
    ordered (fun a b => b_size b * b_hit b <= b_size a * b_hit a) B /\
    (Forall (fun a => a mod 4 = 0) log ->
     Forall (fun b => In (b_ea b + 4 * b_size b) log ->
                      ~ near (occ (b_ea b + 4 * b_size b) log) (b_hit b)) B).
Proof.
  intros qs log s HS H64 Hlen Hrun.
  assert (G := dump_general qs log s HS H64 Hrun).
  assert (Hh : forall a, hits log a = occ a log /\ occ a log < 2 ^ 31).
  { intros a. assert (Ho := occ_le a log). unfold hits.
    rewrite N.mod_small by lia. split; [reflexivity|lia]. }
  destruct (bb_dump qs s) as [B|e].
  - exists B. split; [reflexivity|]. destruct G as (G1 & G2 & G3 & G4).
    split; [exact G1|].
    assert (Hsz : Forall (fun b => b_size b * b_hit b < 2 ^ 64) B).
    { rewrite Forall_forall. intros b Hb.
      rewrite Forall_forall in G2. destruct (G2 b Hb) as (g1 & g2 & _).
      destruct (Hh (b_ea b)) as [q1 q2]. rewrite g1, q1.
      assert (N.of_nat (length (block_addrs b)) <= N.of_nat (length log)).
      { assert (Hin : (length (block_addrs b) <= length (flat_map block_addrs B))%nat).
        { clear - Hb. induction B as [|c B IH]; [destruct Hb|]. cbn. rewrite app_length.
          destruct Hb as [->|Hb]; [lia|]. specialize (IH Hb). lia. }
        rewrite (Permutation_length G1) in Hin.
        assert (length (firsts log) <= length log)%nat.
        { apply NoDup_incl_length; [apply firsts_nodup|]. intros x Hx. now apply firsts_in. }
        lia. }
      assert (Hls : forall n ea, length (span ea n) = n).
      { clear. induction n; intros; cbn; [reflexivity|]. now rewrite IHn. }
      unfold block_addrs in H. rewrite Hls in H.
      assert (b_size b * occ (b_ea b) log <= 2 ^ 31 * 2 ^ 31) by (apply N.mul_le_mono; lia).
      lia. }
    split; [|split].
    + eapply Forall_impl; [|exact G2]. cbn. intros b (g1 & g2 & g3).
      destruct (Hh (b_ea b)) as [q1 q2]. rewrite q1 in g1.
      split; [exact g1|]. split; [exact g2|]. eapply Forall_impl; [|exact g3]. cbn.
      intros a Ha. destruct (Hh a) as [r1 r2]. rewrite r1 in Ha.
      apply near32_near; [lia|lia|exact Ha].
    + eapply ordered_impl; [|exact G3]. cbn. intros a b Ha Hb Hc.
      rewrite Forall_forall in Hsz.
      rewrite !N.mod_small in Hc by (now apply Hsz). exact Hc.
    + intros Hal. specialize (G4 Hal). rewrite Forall_forall in *. intros b Hb Hin Hn.
      apply (G4 b Hb Hin). destruct (Hh (endof b)) as [r1 r2].
      destruct (G2 b Hb) as (g1 & _). destruct (Hh (b_ea b)) as [q1 q2].
      rewrite r1. apply near32_near; [lia|lia|exact Hn].
  - exfalso. destruct G as (_ & x & y & _ & _ & G3).
    destruct (Hh x) as [x1 x2]. destruct (Hh y) as [y1 y2]. rewrite x1, y1 in G3.
    assert (Q := Z.div_mod (Z.of_N (occ x log) - Z.of_N (occ y log)) (2 ^ 32) ltac:(lia)).
    rewrite G3 in Q. lia.
Qed.

(** The truncation is observable. *)
Lemma firsts_repeat : forall b n, firsts (repeat b (S n)) = [b].
Proof.
  intros b. induction n as [|n IH]; [reflexivity|].
  change (repeat b (S (S n))) with (b :: repeat b (S n)). cbn [firsts].
  rewrite IH. cbn. now rewrite N.eqb_refl.
Qed.
Lemma occ_repeat : forall a b n, occ a (repeat b n) = if a =? b then N.of_nat n else 0.
Proof.
  intros a b n. unfold occ. induction n as [|n IH]; [now destruct (a =? b)|].
  cbn [repeat count_occ]. destruct (N.eq_dec b a) as [->|Hn].
  - rewrite N.eqb_refl in *. lia.
  - replace (a =? b) with false in * by lia. exact IH.
Qed.

Theorem truncated_merge : forall qs, sorter qs ->
  exists log s b, Forall (fun a => a < 2 ^ 64) log /\ bb_run log = BOk s /\
    bb_dump qs s = BOk [b] /\ block_addrs b = [0x1000; 0x1004] /\
    occ 0x1000 log = 1 /\ occ 0x1004 log = 2 ^ 32 + 1.
Proof.
  intros qs HS.
  assert (exists n, N.of_nat n = 2 ^ 32) as [n Hn32] by (eexists; apply N2Nat.id).
  set (log := 0x1000 :: repeat 0x1004 (S n)).
  assert (Hf : firsts log = [0x1000; 0x1004]).
  { unfold log. cbn [firsts]. rewrite firsts_repeat. reflexivity. }
  assert (Ho1 : occ 0x1000 log = 1).
  { unfold log. change (0x1000 :: repeat 0x1004 (S n)) with ([0x1000] ++ repeat 0x1004 (S n)).
    unfold occ. rewrite count_occ_app, Nat2N.inj_add. fold (occ 0x1000 (repeat 0x1004 (S n))).
    rewrite occ_repeat. reflexivity. }
  assert (Ho2 : occ 0x1004 log = 2 ^ 32 + 1).
  { unfold log. change (0x1000 :: repeat 0x1004 (S n)) with ([0x1000] ++ repeat 0x1004 (S n)).
    unfold occ. rewrite count_occ_app, Nat2N.inj_add. fold (occ 0x1004 (repeat 0x1004 (S n))).
    rewrite occ_repeat. cbn [N.eqb Pos.eqb]. rewrite Nat2N.inj_succ. rewrite Hn32. reflexivity. }
  assert (H64 : Forall (fun a => a < 2 ^ 64) log).
  { unfold log. constructor; [lia|]. rewrite Forall_forall. intros x Hx.
    apply repeat_spec in Hx. subst x. lia. }
  destruct (counts log) as (s & Es & Hused & _).
  { rewrite Hf. cbn. lia. }
  clearbody log.
  assert (Hpr : profile log = [mk_bbe 0x1000 1 1 true; mk_bbe 0x1004 1 (2 ^ 32 + 1) true]).
  { unfold profile. rewrite Hf. cbn [map]. rewrite Ho1, Ho2. reflexivity. }
  rewrite Hpr in Hused.
  assert (Hd : exists b, bb_dump qs s = BOk [b] /\ block_addrs b = [0x1000; 0x1004]).
  { unfold bb_dump. rewrite Hused.
    destruct (HS bb_compare_ea [mk_bbe 0x1000 1 1 true; mk_bbe 0x1004 1 (2 ^ 32 + 1) true]
                 compare_ea_consistent) as [P0 O0].
    assert (Es0 : qs bb_compare_ea [mk_bbe 0x1000 1 1 true; mk_bbe 0x1004 1 (2 ^ 32 + 1) true]
                  = [mk_bbe 0x1000 1 1 true; mk_bbe 0x1004 1 (2 ^ 32 + 1) true]).
    { set (r := qs _ _) in *. apply Permutation_length_2_inv in P0.
      destruct P0 as [P0|P0]; rewrite P0 in *; [reflexivity|].
      exfalso. destruct O0 as [O0 _]. apply Forall_cons_iff in O0 as [O0 _].
      apply O0. reflexivity. }
    rewrite Es0. cbn [bb_coalesce coalesce_loop b_ea b_hit].
    change (0x1004 =? add64 0x1000 4) with true. cbv iota.
    change (hits_close (2 ^ 32 + 1) 1) with (Some true). cbv iota beta.
    cbn [b_size b_valid].
    set (lead := mk_bbe 0x1000 _ 1 true). set (dead := mk_bbe 0x1004 1 _ false).
    destruct (HS bb_compare_num [lead; dead] compare_num_consistent) as [P2 O2].
    rewrite count_valid_filter by exact O2.
    assert (Ef : filter b_valid (qs bb_compare_num [lead; dead]) = [lead]).
    { apply Permutation_length_1_inv.
      apply (Permutation_filter _ b_valid) in P2. exact P2. }
    rewrite Ef.
    destruct (HS bb_compare_num [lead] compare_num_consistent) as [P3 _].
    apply Permutation_length_1_inv in P3. rewrite P3.
    exists lead. split; reflexivity. }
  destruct Hd as (b & Eb & Hb). exists log, s, b. repeat split; assumption.
Qed.
