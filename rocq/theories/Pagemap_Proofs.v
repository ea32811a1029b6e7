Require Import NArith ZArith List Bool Lia Arith.
Require Import ZifyBool ZifyN ZifyNat.
Require Import Verif.Word Verif.Pagemap_Model Verif.Pagemap_Spec.
Import ListNotations.
Local Open Scope N_scope.

Lemma land_bit x i : (N.land x (N.shiftl 1 i) =? 0) = negb (bit x i).
Proof.
  unfold bit. change 1 with (N.ones 1) at 1. rewrite land_field. change (2 ^ 1) with 2.
  assert (P : 0 < 2 ^ i) by (apply N.neq_0_lt_0, N.pow_nonzero; lia).
  generalize dependent (2 ^ i). intros P0 P. generalize (x / P0). clear x. intro q.
  destruct (q mod 2 =? 1) eqn:E.
  - apply N.eqb_eq in E. rewrite E. cbn [negb]. apply N.eqb_neq. lia.
  - assert (E0 : q mod 2 = 0) by (clear -E; lia). rewrite E0. reflexivity.
Qed.

Lemma land_flags x :
  (N.land x (N.lor (N.shiftl 1 17) (N.shiftl 1 22)) =? 0) = negb (bit x 17 || bit x 22).
Proof.
  rewrite N.land_lor_distr_r, negb_orb, <- !land_bit.
  apply eq_true_iff_eq. rewrite andb_true_iff, !N.eqb_eq. apply N.lor_eq_0_iff.
Qed.

Lemma pa_frame e : u64 (N.shiftl (N.land e 0x3fffffffffffff) 16) = e mod 2 ^ 48 * 2 ^ 16.
Proof.
  change 0x3fffffffffffff with (N.ones 54). rewrite N.land_ones, N.shiftl_mul_pow2.
  unfold u64, w64.
  change 18446744073709551616 with (2 ^ 48 * 2 ^ 16). rewrite N.mul_mod_distr_r by discriminate.
  f_equal. change (2 ^ 54) with (2 ^ 48 * 2 ^ 6).
  rewrite N.mod_mul_r by discriminate.
  rewrite N.mul_comm, N.mod_add by discriminate. apply N.mod_mod. discriminate.
Qed.

Lemma pa_shift e : e mod 2 ^ 48 * 2 ^ 16 / 2 ^ 16 = e mod 2 ^ 48.
Proof. apply N.div_mul. discriminate. Qed.

(** Lookup in terms of what the kernel would say *)
Definition hit (st : pstate) (a : acc) (sh : N) : option N :=
  let p := a_ea a / 2 ^ sh in
  let e := (if sh =? 16 then base_map st else huge_map st) (p mod 4096) in
  if (m_ea e =? p) && (u32 (u32 (access_seq st + 1) + w32 - m_seq e) <? interval a)
  then Some (m_pa e) else None.

Definition tick (st : pstate) : pstate := mk_pstate (u32 (access_seq st + 1)) (base_map st) (huge_map st).
Definition filled (st : pstate) (ea pa sh : N) : pstate :=
  let s := u32 (access_seq st + 1) in
  let p := ea / 2 ^ sh in
  if sh =? 21 then mk_pstate s (base_map st) (set (huge_map st) (p mod 4096) (mk_map p pa s))
  else mk_pstate s (set (base_map st) (p mod 4096) (mk_map p pa s)) (huge_map st).

Lemma lookup_eq st a :
  lookup st a =
  match hit st a 16 with
  | Some pa => PAns (tick st) pa 16
  | None =>
      match hit st a 21 with
      | Some pa => PAns (tick st) pa 21
      | None =>
          match asked (a_kernel a) (a_ea a) with
          | Some (pa, sh) => PAns (filled st (a_ea a) pa sh) pa sh
          | None =>
              match pagemap_at (a_kernel a) (a_ea a / 2 ^ 16) with
              | None => PExit
              | Some e => if bit e 63 then PExit else PNone (tick st)
              end
          end
      end
  end.
Proof.
  unfold lookup, ea_to_pa, hit, asked, tick, base_pshift, huge_pshift, BASE_MAP_SIZE, HUGE_MAP_SIZE.
  rewrite !N.shiftr_div_pow2.
  change (if a_iside a then REFRESH_INTERVAL_ISIDE else REFRESH_INTERVAL_DSIDE) with (interval a).
  cbn [base_map huge_map N.eqb Pos.eqb].
  set (s := u32 (access_seq st + 1)).
  set (b := base_map st _). set (h := huge_map st _).
  destruct ((m_ea b =? a_ea a / 2 ^ 16) && (u32 (s + w32 - m_seq b) <? interval a)); [reflexivity|].
  destruct ((m_ea h =? a_ea a / 2 ^ 21) && (u32 (s + w32 - m_seq h) <? interval a)); [reflexivity|].
  destruct (pagemap_at (a_kernel a) (a_ea a / 2 ^ 16)) as [e|]; [|reflexivity].
  rewrite land_bit. destruct (bit e 63); cbn [negb]; [|reflexivity].
  rewrite pa_frame, N.shiftr_div_pow2, pa_shift.
  cbv zeta.
  destruct (kpageflags_at (a_kernel a) (e mod 2 ^ 48)) as [f|]; [|reflexivity].
  rewrite land_flags, negb_involutive. unfold filled. fold s.
  destruct (bit f 17 || bit f 22); reflexivity.
Qed.

Lemma asked_shift k ea pa sh : asked k ea = Some (pa, sh) -> sh = 16 \/ sh = 21.
Proof.
  unfold asked. destruct (pagemap_at k _) as [e|]; [|discriminate].
  destruct (bit e 63); [|discriminate]. destruct (kpageflags_at k _) as [f|]; [|discriminate].
  destruct (bit f 17 || bit f 22); intro H; injection H as _ <-; auto.
Qed.

(** Where an entry comes from *)
Definition from (h : list acc) (sh : N) (e : map) : Prop :=
  e = mk_map 0 0 0 \/
  exists i a, nth_error h i = Some a /\ asked (a_kernel a) (a_ea a) = Some (m_pa e, sh) /\
    m_ea e = a_ea a / 2 ^ sh /\ m_seq e = N.of_nat (S i).
Definition Inv (h : list acc) (st : pstate) : Prop :=
  access_seq st = N.of_nat (length h) /\
  (forall i, from h 16 (base_map st i)) /\ (forall i, from h 21 (huge_map st i)).

Lemma from_app h a sh e : from h sh e -> from (h ++ [a]) sh e.
Proof.
  intros [?|(i & b & H & R)]; [left; auto|]. right. exists i, b. split; [|exact R].
  rewrite nth_error_app1; [exact H|]. apply nth_error_Some. congruence.
Qed.

Lemma inv_tick h st a : N.of_nat (S (length h)) < w32 -> Inv h st -> Inv (h ++ [a]) (tick st).
Proof.
  intros Hl (Hs & Hb & Hh). split; [|split].
  - cbn [access_seq tick]. rewrite Hs, app_length. cbn [length]. unfold u32. rewrite N.mod_small; lia.
  - intro i. apply from_app, Hb.
  - intro i. apply from_app, Hh.
Qed.

Lemma inv_filled h st a pa sh : N.of_nat (S (length h)) < w32 -> Inv h st ->
  asked (a_kernel a) (a_ea a) = Some (pa, sh) ->
  Inv (h ++ [a]) (filled st (a_ea a) pa sh).
Proof.
  intros Hl HI Ha. destruct (inv_tick h st a Hl HI) as (Hs & Hb & Hh).
  destruct HI as (Hs0 & _ & _).
  assert (Eseq : u32 (access_seq st + 1) = N.of_nat (S (length h))).
  { rewrite Hs0. unfold u32. rewrite N.mod_small; lia. }
  assert (Hnew : from (h ++ [a]) sh (mk_map (a_ea a / 2 ^ sh) pa (u32 (access_seq st + 1)))).
  { right. exists (length h), a. cbn [m_pa m_ea m_seq]. rewrite Eseq.
    rewrite nth_error_app2, Nat.sub_diag by apply Nat.le_refl. auto. }
  unfold filled. destruct (asked_shift _ _ _ _ Ha) as [-> | ->]; cbn [N.eqb Pos.eqb].
  - split; [exact Hs|]. split; [|exact Hh]. intro i. cbn [base_map]. unfold set.
    destruct (i =? _); [exact Hnew|apply Hb].
  - split; [exact Hs|]. split; [exact Hb|]. intro i. cbn [huge_map]. unfold set.
    destruct (i =? _); [exact Hnew|apply Hh].
Qed.

Lemma reached_inv h st : reached h st -> N.of_nat (length h) < w32 -> Inv h st.
Proof.
  intro H. induction H as [|h st a st' H IH E|h st a st' pa sh H IH E]; intro Hl.
  - split; [reflexivity|]. split; intro i; left; reflexivity.
  - rewrite app_length in Hl. cbn [length] in Hl.
    assert (HI : Inv h st) by (apply IH; lia). rewrite lookup_eq in E.
    destruct (hit st a 16); [discriminate|]. destruct (hit st a 21); [discriminate|].
    destruct (asked _ _) as [[pa sh]|]; [discriminate|].
    destruct (pagemap_at _ _) as [e|]; [|discriminate]. destruct (bit e 63); [discriminate|].
    injection E as <-. apply inv_tick; [lia|exact HI].
  - rewrite app_length in Hl. cbn [length] in Hl.
    assert (HI : Inv h st) by (apply IH; lia). rewrite lookup_eq in E.
    destruct (hit st a 16); [injection E as <- _ _; apply inv_tick; [lia|exact HI]|].
    destruct (hit st a 21); [injection E as <- _ _; apply inv_tick; [lia|exact HI]|].
    destruct (asked _ _) as [[pa' sh']|] eqn:Ea.
    + injection E as <- _ _. apply inv_filled; [lia|exact HI|exact Ea].
    + destruct (pagemap_at _ _) as [e|]; [|discriminate]. destruct (bit e 63); discriminate.
Qed.

Lemma hit_from h st a sh pa : N.of_nat (S (length h)) < w32 -> Inv h st -> sh = 16 \/ sh = 21 ->
  hit st a sh = Some pa ->
  recent h (interval a) (a_ea a) pa sh \/
  (a_ea a < 2 ^ sh /\ pa = 0 /\ N.of_nat (S (length h)) < interval a).
Proof.
  intros Hl (Hs & Hb & Hh) Hsh H. unfold hit in H.
  set (p := a_ea a / 2 ^ sh) in *.
  set (e := (if sh =? 16 then base_map st else huge_map st) (p mod 4096)) in *.
  assert (Hf : from h sh e).
  { unfold e. destruct Hsh as [-> | ->]; cbn [N.eqb Pos.eqb]; [apply Hb|apply Hh]. }
  destruct (m_ea e =? p) eqn:E1; [|discriminate].
  destruct (_ <? interval a) eqn:E2; [|discriminate]. cbn [andb] in H.
  injection H as H.
  apply N.eqb_eq in E1.
  assert (Eseq : u32 (access_seq st + 1) = N.of_nat (S (length h))).
  { rewrite Hs. unfold u32. rewrite N.mod_small; lia. }
  rewrite Eseq in E2.
  destruct Hf as [Hf|(i & b & Hi & Hask & Hea & Hsq)].
  - right. rewrite Hf in *. cbn [m_ea m_pa m_seq] in *.
    split; [|split; [auto|]].
    + assert (Hz : a_ea a / 2 ^ sh = 0) by (unfold p in E1; auto).
      apply N.div_small_iff in Hz; [exact Hz|apply N.pow_nonzero; lia].
    + unfold u32 in E2. rewrite N.sub_0_r in E2.
      replace (N.of_nat (S (length h)) + w32) with (N.of_nat (S (length h)) + 1 * w32) in E2 by lia.
      rewrite N.mod_add, N.mod_small in E2; lia.
  - left. exists i, b. split; [exact Hi|].
    assert (Hil : (i < length h)%nat) by (apply nth_error_Some; congruence).
    split; [congruence|]. split.
    + unfold same_page. rewrite <- Hea. exact E1.
    + rewrite Hsq in E2. unfold u32 in E2.
      replace (N.of_nat (S (length h)) + w32 - N.of_nat (S i))
        with (N.of_nat (length h) - N.of_nat i + 1 * w32) in E2 by lia.
      rewrite N.mod_add, N.mod_small in E2; lia.
Qed.

Lemma answers h st a st' pa sh : reached h st -> N.of_nat (S (length h)) < 2 ^ 32 ->
  lookup st a = PAns st' pa sh ->
  asked (a_kernel a) (a_ea a) = Some (pa, sh) \/
  recent h (interval a) (a_ea a) pa sh \/
  (a_ea a < 2 ^ sh /\ pa = 0 /\ N.of_nat (S (length h)) < interval a).
Proof.
  intros Hr Hl H. change (2 ^ 32) with w32 in Hl.
  assert (HI := reached_inv h st Hr ltac:(lia)). rewrite lookup_eq in H.
  destruct (hit st a 16) as [pa'|] eqn:E16.
  - injection H as _ <- <-. right. exact (hit_from h st a 16 _ Hl HI (or_introl eq_refl) E16).
  - destruct (hit st a 21) as [pa'|] eqn:E21.
    + injection H as _ <- <-. right. exact (hit_from h st a 21 _ Hl HI (or_intror eq_refl) E21).
    + destruct (asked _ _) as [[pa' sh']|]; [injection H as _ <- <-; auto|].
      destruct (pagemap_at _ _) as [e|]; [|discriminate]. destruct (bit e 63); discriminate.
Qed.

(** The first lookup in a huge page asks. *)
Lemma not_hit h st a sh : N.of_nat (S (length h)) < w32 -> Inv h st -> sh = 16 \/ sh = 21 ->
  2 ^ 21 <= a_ea a -> (forall b, In b h -> ~ same_page 21 (a_ea b) (a_ea a)) ->
  hit st a sh = None.
Proof.
  intros Hl HI Hsh Hea Hnew. destruct (hit st a sh) as [pa|] eqn:E; [|reflexivity]. exfalso.
  destruct (hit_from h st a sh pa Hl HI Hsh E) as [(i & b & Hi & _ & Hp & _)|(Hz & _)].
  - apply (Hnew b); [eapply nth_error_In; eauto|]. unfold same_page in *.
    destruct Hsh as [-> | ->]; [|exact Hp].
    change (2 ^ 21) with (2 ^ 16 * 2 ^ 5). rewrite <- !N.div_div by discriminate. congruence.
  - destruct Hsh as [-> | ->]; change (2 ^ 21) with 2097152 in *; [change (2 ^ 16) with 65536 in Hz|]; lia.
Qed.

Lemma first_asks h st a : reached h st -> N.of_nat (S (length h)) < 2 ^ 32 ->
  2 ^ 21 <= a_ea a -> (forall b, In b h -> ~ same_page 21 (a_ea b) (a_ea a)) ->
  match lookup st a with
  | PAns _ pa sh => asked (a_kernel a) (a_ea a) = Some (pa, sh)
  | _ => asked (a_kernel a) (a_ea a) = None
  end.
Proof.
  intros Hr Hl Hea Hnew. change (2 ^ 32) with w32 in Hl.
  assert (HI := reached_inv h st Hr ltac:(lia)). rewrite lookup_eq.
  rewrite (not_hit h st a 16 Hl HI (or_introl eq_refl) Hea Hnew), (not_hit h st a 21 Hl HI (or_intror eq_refl) Hea Hnew).
  destruct (asked _ _) as [[pa sh]|]; [reflexivity|].
  destruct (pagemap_at _ _) as [e|]; [|reflexivity]. destruct (bit e 63); reflexivity.
Qed.

(** A lookup of the same address directly behind it does not. *)
Lemma repeat_cached h st a st' pa sh k : reached h st -> N.of_nat (S (S (length h))) < 2 ^ 32 ->
  2 ^ 21 <= a_ea a -> (forall b, In b h -> ~ same_page 21 (a_ea b) (a_ea a)) ->
  lookup st a = PAns st' pa sh ->
  exists st'', lookup st' (mk_acc (a_ea a) (a_iside a) k) = PAns st'' pa sh.
Proof.
  intros Hr Hl Hea Hnew H. change (2 ^ 32) with w32 in Hl.
  assert (HI := reached_inv h st Hr ltac:(lia)). rewrite lookup_eq in H.
  assert (Hl1 : N.of_nat (S (length h)) < w32) by lia.
  rewrite (not_hit h st a 16 Hl1 HI (or_introl eq_refl) Hea Hnew),
    (not_hit h st a 21 Hl1 HI (or_intror eq_refl) Hea Hnew) in H.
  destruct (asked _ _) as [[pa' sh']|] eqn:Ea.
  2:{ destruct (pagemap_at _ _) as [e|]; [|discriminate]. destruct (bit e 63); discriminate. }
  injection H as <- <- <-.
  assert (Hs : access_seq st = N.of_nat (length h)) by apply HI.
  assert (Eseq : u32 (access_seq st + 1) = N.of_nat (S (length h))).
  { rewrite Hs. unfold u32. rewrite N.mod_small; lia. }
  assert (Eseq2 : u32 (N.of_nat (S (length h)) + 1) = N.of_nat (S (S (length h)))).
  { unfold u32. rewrite N.mod_small; lia. }
  assert (Efresh : (u32 (N.of_nat (S (S (length h))) + w32 - N.of_nat (S (length h))) <? interval a) = true).
  { replace (N.of_nat (S (S (length h))) + w32 - N.of_nat (S (length h))) with (1 + 1 * w32) by lia.
    unfold u32. rewrite N.mod_add, N.mod_small by (unfold w32; lia).
    unfold interval. destruct (a_iside a); reflexivity. }
  set (a' := mk_acc (a_ea a) (a_iside a) k).
  assert (Ei : interval a' = interval a) by reflexivity.
  rewrite lookup_eq. change (a_ea a') with (a_ea a).
  destruct (asked_shift _ _ _ _ Ea) as [-> | ->].
  - unfold hit. change (a_ea a') with (a_ea a). rewrite Ei.
    unfold filled. cbn [N.eqb Pos.eqb base_map huge_map access_seq].
    rewrite Eseq, Eseq2. unfold set. rewrite N.eqb_refl. cbn [m_ea m_seq m_pa].
    rewrite N.eqb_refl, Efresh. cbn [andb]. eauto.
  - assert (E16 : hit (filled st (a_ea a) pa' 21) a' 16 = None).
    { destruct (hit _ a' 16) as [x|] eqn:E; [|reflexivity]. exfalso.
      assert (HI' := inv_filled h st a pa' 21 ltac:(lia) HI Ea).
      assert (Hb : forall i, from h 16 (base_map st i)) by apply HI.
      unfold hit in E. change (a_ea a') with (a_ea a) in E.
      unfold filled in E. cbn [N.eqb Pos.eqb base_map] in E.
      destruct (Hb (a_ea a / 2 ^ 16 mod 4096)) as [Hf|(i & b & Hi & _ & Hpg & _)].
      - rewrite Hf in E. cbn [m_ea] in E.
        assert (Hz : a_ea a / 2 ^ 16 <> 0).
        { intro Z. apply N.div_small_iff in Z; [|discriminate].
          change (2 ^ 16) with 65536 in Z. change (2 ^ 21) with 2097152 in Hea. lia. }
        replace (0 =? a_ea a / 2 ^ 16) with false in E by (clear -Hz; lia). discriminate.
      - destruct (m_ea _ =? a_ea a / 2 ^ 16) eqn:Em; [|discriminate]. apply N.eqb_eq in Em.
        apply (Hnew b); [eapply nth_error_In; eauto|]. unfold same_page.
        change (2 ^ 21) with (2 ^ 16 * 2 ^ 5). rewrite <- !N.div_div by discriminate. congruence. }
    rewrite E16. unfold hit. change (a_ea a') with (a_ea a). rewrite Ei.
    unfold filled. cbn [N.eqb Pos.eqb base_map huge_map access_seq].
    rewrite Eseq, Eseq2. unfold set. rewrite N.eqb_refl. cbn [m_ea m_seq m_pa].
    rewrite N.eqb_refl, Efresh. cbn [andb]. eauto.
Qed.

(** Lookups that find nothing only advance the counter. *)
Definition nowhere : kernel := mk_kernel (fun _ => Some 0) (fun _ => Some 0).
Definition frame_at (f flags : N) : kernel :=
  mk_kernel (fun _ => Some (2 ^ 63 + f)) (fun _ => Some flags).
Definition other : acc := mk_acc 8388608 false nowhere.

Lemma idle h st n : reached h st -> m_ea (base_map st 128) = 0 -> m_ea (huge_map st 4) = 0 ->
  reached (h ++ repeat other n)
    (mk_pstate ((access_seq st + N.of_nat n) mod w32) (base_map st) (huge_map st)) \/ n = O.
Proof.
  intros Hr Hb Hh. induction n as [|n IH]; [auto|left].
  assert (Hstep : forall h' st', reached h' st' -> base_map st' = base_map st -> huge_map st' = huge_map st ->
            reached (h' ++ [other]) (tick st')).
  { intros h' st' R Eb Eh. apply reached_none with (st := st'); [exact R|].
    rewrite lookup_eq. unfold hit. change (a_ea other / 2 ^ 16) with 128.
    change (a_ea other / 2 ^ 21) with 4. cbn [N.eqb Pos.eqb].
    change (128 mod 4096) with 128. change (4 mod 4096) with 4.
    rewrite Eb, Eh, Hb, Hh. cbn [N.eqb andb]. reflexivity. }
  replace (repeat other (S n)) with (repeat other n ++ [other]).
  2:{ clear. induction n; [reflexivity|]. cbn [repeat app]. now rewrite IHn. }
  rewrite app_assoc. destruct IH as [IH| ->].
  - specialize (Hstep _ _ IH eq_refl eq_refl). unfold tick in Hstep. cbn [access_seq base_map huge_map] in Hstep.
    replace (u32 ((access_seq st + N.of_nat n) mod w32 + 1))
      with ((access_seq st + N.of_nat (S n)) mod w32) in Hstep; [exact Hstep|].
    unfold u32. rewrite N.add_mod_idemp_l by discriminate. f_equal. lia.
  - cbn [repeat]. rewrite app_nil_r. specialize (Hstep _ _ Hr eq_refl eq_refl).
    unfold tick, u32 in Hstep. exact Hstep.
Qed.

Definition first_acc : acc := mk_acc 4194304 false (frame_at 5 0).
Definition last_acc : acc := mk_acc 4194304 false (frame_at 6 0).
Definition st1 : pstate := filled init_state 4194304 (5 * 65536) 16.
Lemma reached1 : reached [first_acc] st1.
Proof.
  apply (reached_ans [] init_state first_acc st1 (5 * 65536) 16); [constructor|].
  rewrite lookup_eq. reflexivity.
Qed.

Lemma wrap_history : exists st st',
  reached (first_acc :: repeat other (N.to_nat 4294967295)) st /\
  lookup st last_acc = PAns st' (5 * 65536) 16.
Proof.
  destruct (idle [first_acc] st1 (N.to_nat 4294967295) reached1 eq_refl eq_refl) as [H|H].
  2:{ exfalso. apply (f_equal N.of_nat) in H. rewrite N2Nat.id in H. discriminate. }
  rewrite N2Nat.id in H.
  exists (mk_pstate ((access_seq st1 + 4294967295) mod w32) (base_map st1) (huge_map st1)).
  eexists. split; [exact H|]. rewrite lookup_eq. unfold hit.
  change (access_seq (mk_pstate ((access_seq st1 + 4294967295) mod w32) (base_map st1) (huge_map st1))) with 0.
  cbn [base_map]. reflexivity.
Qed.
Lemma repeat_len (x y : acc) n : N.of_nat (length (x :: repeat y (N.to_nat n))) = N.succ n.
Proof. cbn [length]. now rewrite repeat_length, Nat2N.inj_succ, N2Nat.id. Qed.
Lemma wrap_length : N.of_nat (length (first_acc :: repeat other (N.to_nat 4294967295))) = 2 ^ 32.
Proof. exact (repeat_len first_acc other 4294967295). Qed.
Lemma tail_only (x y : acc) n i b : nth_error (x :: repeat y n) i = Some b -> b <> y -> i = O.
Proof.
  destruct i as [|i]; [reflexivity|]. cbn [nth_error]. intros H X.
  apply nth_error_In, repeat_spec in H. contradiction.
Qed.
Lemma wrap_only i b : nth_error (first_acc :: repeat other (N.to_nat 4294967295)) i = Some b ->
  same_page 21 (a_ea b) (a_ea last_acc) -> i = O.
Proof.
  intros H X. apply (tail_only _ _ _ _ _ H). intros ->. discriminate X.
Qed.
