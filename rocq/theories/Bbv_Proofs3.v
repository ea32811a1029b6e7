(** Basic-block vectors: traces as blocks, sums, the whole tool. *)
Require Import NArith ZArith Arith List Bool Lia Permutation.
Require Import ZifyBool ZifyN ZifyNat.
Require Import Verif.Word Verif.Matrix_Model Verif.Matrix_Spec Verif.Matrix_Proofs.
Require Import Verif.Pam_Model Verif.Pam_Spec Verif.Pam_Proofs.
Require Import Verif.Bbv_Model Verif.Bbv_Spec Verif.Bbv_Proofs Verif.Bbv_Proofs2.
Import ListNotations.
Local Open Scope N_scope.

(** ** The blocks of a trace *)
Lemma scan_open : forall body t op recs, Forall (fun r => snd r = false) body ->
  scan t op (body ++ recs) = scan (t + N.of_nat (length body)) (op ++ body) recs.
Proof.
  induction body as [|r body IH]; intros t op recs H.
  - cbn [app length]. rewrite app_nil_r. now replace (t + N.of_nat 0) with t by lia.
  - inversion H as [|? ? Hr Hb E]. subst. cbn [app scan]. unfold next_open. rewrite Hr. cbn [app].
    rewrite IH by exact Hb. rewrite <- app_assoc. cbn [app length]. f_equal. lia.
Qed.
Lemma scan_block : forall b t recs, is_block b ->
  scan t [] (b ++ recs) = mk_block (t + N.of_nat (length b) - 1) (start b) (N.of_nat (length b)) ::
                          scan (t + N.of_nat (length b)) [] recs.
Proof.
  intros b t recs (body & last & -> & Hb & Hl). rewrite <- app_assoc, scan_open by exact Hb. cbn [app scan].
  unfold next_open. rewrite Hl. cbn [app]. rewrite app_length. cbn [length].
  replace (t + N.of_nat (length body + 1) - 1) with (t + N.of_nat (length body)) by lia.
  replace (t + N.of_nat (length body + 1)) with (t + N.of_nat (length body) + 1) by lia. reflexivity.
Qed.
Lemma scan_trace : forall bs t rest, Forall is_block bs -> Forall (fun r => snd r = false) rest ->
  scan t [] (concat bs ++ rest) = timed t bs.
Proof.
  induction bs as [|b bs IH]; intros t rest Hb Hr; cbn [concat app timed].
  - rewrite <- (app_nil_r rest). rewrite scan_open by exact Hr. reflexivity.
  - inversion Hb as [|? ? Hb1 Hb2 E]. subst. rewrite <- app_assoc, scan_block by exact Hb1.
    rewrite IH by assumption. reflexivity.
Qed.
Lemma trace_exists : forall recs, exists bs rest, trace recs bs rest.
Proof.
  intro recs. assert (H : forall op recs, Forall (fun r => snd r = false) op ->
    exists bs rest, trace (op ++ recs) bs rest).
  { clear. intros op recs. revert op. induction recs as [|r recs IH]; intros op Ho.
    - exists [], op. rewrite app_nil_r. repeat split; auto.
    - destruct (snd r) eqn:E.
      + destruct (IH [] (Forall_nil _)) as (bs & rest & T1 & T2 & T3). cbn [app] in T1.
        exists ((op ++ [r]) :: bs), rest. repeat split; auto.
        * cbn [concat]. rewrite T1, <- !app_assoc. reflexivity.
        * constructor; [|exact T2]. exists op, r. auto.
      + destruct (IH (op ++ [r])) as (bs & rest & T1 & T2 & T3).
        { apply Forall_app. split; [exact Ho|]. now constructor. }
        exists bs, rest. repeat split; auto. rewrite <- T1, <- app_assoc. reflexivity. }
  apply (H [] recs). constructor.
Qed.

(** ** Row sums *)
Section SUM.
  Variable P : N.
  Lemma sum_list : forall (F : list N) (g : N -> N),
    sum_to (length F) (fun c => match nth_error F (N.to_nat c) with Some a => g a | None => 0 end) =
    fold_right (fun a s => g a + s) 0 F.
  Proof.
    induction F as [|x F IH] using rev_ind; intro g; [reflexivity|].
    rewrite app_length. cbn [length]. replace (length F + 1)%nat with (S (length F)) by lia. cbn [sum_to].
    rewrite (sum_ext _ _ (fun c => match nth_error F (N.to_nat c) with Some a => g a | None => 0 end)).
    2:{ intros i Hi. rewrite nth_error_app1 by lia. reflexivity. }
    rewrite IH, Nat2N.id, nth_error_app2 by lia. rewrite Nat.sub_diag. cbn [nth_error].
    clear. induction F as [|y F IH]; cbn [app fold_right]; [lia|]. rewrite <- IH. lia.
  Qed.
  Lemma fold_add : forall (F : list N) (g h : N -> N),
    fold_right (fun a s => (g a + h a) + s) 0 F = fold_right (fun a s => g a + s) 0 F + fold_right (fun a s => h a + s) 0 F.
  Proof. induction F as [|x F IH]; intros; cbn; [reflexivity|]. rewrite IH. lia. Qed.
  Lemma fold_one : forall (F : list N) b v, NoDup F -> In b F ->
    fold_right (fun a s => (if b =? a then v else 0) + s) 0 F = v.
  Proof.
    induction F as [|x F IH]; intros b v Hd Hin; [destruct Hin|]. cbn [fold_right].
    inversion Hd as [|? ? Hn Hd' E]. subst. destruct (N.eqb_spec b x) as [-> |Nb].
    - enough (fold_right (fun a s => (if x =? a then v else 0) + s) 0 F = 0) by lia.
      clear - Hn. induction F as [|y F IH]; [reflexivity|]. cbn [fold_right].
      destruct (N.eqb_spec x y) as [-> |]; [exfalso; apply Hn; now left|].
      rewrite IH; [reflexivity|]. intro H. apply Hn. now right.
    - destruct Hin as [->|Hin]; [contradiction|]. now rewrite IH.
  Qed.
  Lemma fold_mod : forall (F : list N) (g : N -> N),
    fold_right (fun a s => g a mod 2 ^ 64 + s) 0 F mod 2 ^ 64 = fold_right (fun a s => g a + s) 0 F mod 2 ^ 64.
  Proof.
    induction F as [|x F IH]; intro g; cbn [fold_right]; [reflexivity|].
    rewrite N.add_mod, IH, N.mod_mod, <- N.add_mod by discriminate. reflexivity.
  Qed.
  Lemma swap_sum : forall ks i (F : list N), NoDup F -> incl (map k_addr ks) F ->
    fold_right (fun a s => fold_right (fun k s => (if (k_end k / P =? i) && (k_addr k =? a) then k_len k mod 2 ^ 32 else 0) + s) 0 ks + s) 0 F =
    fold_right (fun k s => (if k_end k / P =? i then k_len k mod 2 ^ 32 else 0) + s) 0 ks.
  Proof.
    induction ks as [|k ks IH]; intros i F Hd Hi; cbn [fold_right].
    - clear. induction F; cbn; auto.
    - rewrite (fold_add F (fun a => if (k_end k / P =? i) && (k_addr k =? a) then k_len k mod 2 ^ 32 else 0)).
      rewrite IH; auto.
      2:{ intros x Hx. apply Hi. now right. }
      f_equal. destruct (k_end k / P =? i); cbn [andb].
      + apply fold_one; auto. apply Hi. now left.
      + clear. induction F; cbn; auto.
  Qed.
  (** The entries of a row add up to the instructions of the blocks that ended. *)
  Lemma row_sum : forall ks i,
    sum_to (length (firsts (map k_addr ks)) + 1) (vector P ks i) mod 2 ^ 64 =
    fold_right (fun k s => (if k_end k / P =? i then k_len k mod 2 ^ 32 else 0) + s) 0 ks mod 2 ^ 64.
  Proof.
    intros ks i. set (F := firsts (map k_addr ks)).
    replace (length F + 1)%nat with (S (length F)) by lia. cbn [sum_to].
    assert (Z : vector P ks i (N.of_nat (length F)) = 0).
    { unfold vector. rewrite Nat2N.id. fold F. rewrite (proj2 (nth_error_None F _)); [reflexivity|lia]. }
    rewrite Z, N.add_0_r. unfold vector. fold F. rewrite (sum_list F (weight P ks i)).
    unfold weight. rewrite (fold_mod F). f_equal. apply swap_sum; [apply firsts_nodup|].
    intros a Ha. now apply firsts_in.
  Qed.
End SUM.

(** ** The matrix and the tool *)
Section TOOL.
  Variable junk : nat -> N.
  Variable walk : list obj -> list obj.
  Variables rows0 cols0 period : N.
  Hypothesis Hwalk : forall l, Permutation (walk l) l.
  Hypothesis Hp64 : period < 2 ^ 64.
  Hypothesis Hr0 : rows0 <> 0.
  Hypothesis Hc0 : cols0 <> 0.
  Notation P := (N.max period 1).

  Lemma t_vectors : forall coin recs bs rest, trace recs bs rest ->
    Forall (fun r => fst r <> MINUS1) recs ->
    let ks := timed 0 bs in let I := N.of_nat (length recs) / P in
    grows_slowly P cols0 ks I -> fits rows0 cols0 ks I -> I <> 0 ->
    exists m, vectors junk walk rows0 cols0 period coin 0 recs = MOk m /\
      holds m I (N.of_nat (length (firsts (map k_addr ks))) + 1) (vector P ks).
  Proof.
    intros coin recs bs rest (T1 & T2 & T3) Hr ks I Hg Hf HI.
    assert (E : scan 0 [] recs = ks) by (rewrite T1; now apply scan_trace).
    destruct (vectors_ok junk walk Hwalk rows0 cols0 period P eq_refl Hp64 Hr0 Hc0 coin recs Hr) as (m & Em & Hm);
      rewrite ?E; auto.
    exists m. rewrite E in Hm. auto.
  Qed.
  Lemma t_projected : forall coin dims recs bs rest, trace recs bs rest -> dims <> 0 ->
    Forall (fun r => fst r <> MINUS1) recs ->
    let ks := timed 0 bs in let I := N.of_nat (length recs) / P in
    let n := N.of_nat (length (firsts (map k_addr ks))) in
    grows_slowly P cols0 ks I -> fits rows0 cols0 ks I -> I <> 0 ->
    I * dims < 2 ^ 61 -> (n + 1) * dims < 2 ^ 61 ->
    exists m, vectors junk walk rows0 cols0 period coin dims recs = MOk m /\
      holds m I dims (product (n + 1) (vector P ks) (sign_of coin)).
  Proof.
    intros coin dims recs bs rest T Hd Hr ks I n Hg Hf HI B1 B2.
    destruct (t_vectors coin recs bs rest T Hr Hg Hf HI) as (m & E & Hm).
    unfold vectors in *. destruct (parse _ _ _ _ _ _) as [s|e]; [|discriminate E]. cbn [m_bind] in *.
    destruct (m_resize _ _ _ _) as [m1|e]; [|discriminate E]. cbn [m_bind N.eqb] in *. injection E as ->.
    destruct (N.eqb_spec dims 0); [contradiction|].
    apply (projection_ok junk coin m I (n + 1) dims (vector P ks) Hm B1 B2).
  Qed.
  Lemma t_tool : forall coin dims recs m I cols f, vectors junk walk rows0 cols0 period coin dims recs = MOk m ->
    holds m I cols f -> I <> 0 -> I < 2 ^ 64 -> no_undef f I cols -> not_far f I cols ->
    exists rs n, (forall fuel, (n <= fuel)%nat -> tool junk walk rows0 cols0 period coin dims 0 fuel recs = POk rs) /\
      rs <> [] /\ (length rs <= 32)%nat /\
      forall i r, nth_error rs i = Some r ->
        clustering (D f cols) I (1 + N.of_nat i) period r /\
        ((S i < length rs)%nat -> fst r <> 0) /\
        (S i = length rs -> (length rs < 32)%nat -> fst r = 0).
  Proof.
    intros coin dims recs m I cols f E Hm HI HI2 Hu Hf. unfold tool. rewrite E.
    exact (a_sweep m I cols f Hm Hu HI2 Hf period HI).
  Qed.
End TOOL.

(** A trace shorter than an interval *)
Lemma short_loop : forall junk walk period recs s, N.of_nat (length recs) + b_insns s < period ->
  period < 2 ^ 64 ->
  exists s', loop junk walk period s recs = MOk s' /\ b_interval s' = b_interval s /\ b_matrix s' = b_matrix s.
Proof.
  intros junk walk period. induction recs as [|r recs IH]; intros s H H64; [exists s; auto|].
  cbn [loop]. unfold one. cbv zeta.
  set (s2 := if snd r then _ else _).
  assert (S2 : b_insns s2 = b_insns s /\ b_interval s2 = b_interval s /\ b_matrix s2 = b_matrix s).
  { unfold s2. destruct (snd r); [|auto]. cbn [b_insns b_interval b_matrix]. unfold add_basic_block.
    destruct (bump _ _ _); auto. }
  destruct S2 as (A1 & A2 & A3). cbn [length] in H.
  assert (E : add64 (b_insns s2) 1 = b_insns s + 1).
  { rewrite A1. unfold add64. change w64 with (2 ^ 64). apply N.mod_small. lia. }
  rewrite E. destruct (N.leb_spec period (b_insns s + 1)) as [L|_]; [lia|]. cbn [m_bind].
  destruct (IH (mk_bbv (b_objs s2) (b_next s2) (b_matrix s2) (b_interval s2) (b_ea s2) (b_size s2) (b_insns s + 1)))
    as (s' & E1 & E2 & E3).
  { cbn [b_insns]. lia. } { exact H64. }
  exists s'. cbn [b_interval b_matrix] in E2, E3. repeat split; congruence.
Qed.
Lemma short_exit : forall junk walk rows0 cols0 period coin dims my_k fuel recs,
  rows0 * cols0 < 2 ^ 61 -> N.of_nat (length recs) < period -> period < 2 ^ 64 -> dims < 2 ^ 28 ->
  tool junk walk rows0 cols0 period coin dims my_k fuel recs = PErr PExit.
Proof.
  intros junk walk rows0 cols0 period coin dims my_k fuel recs HB HL H64 Hd.
  unfold tool, vectors, parse.
  destruct (create_ok junk rows0 cols0 HB) as (m & Em & Hm). rewrite Em. cbn [m_bind].
  destruct (short_loop junk walk period recs (mk_bbv [] 0 m 0 MINUS1 0 0)) as (s & Es & Ei & Emm).
  { cbn [b_insns]. lia. } { exact H64. }
  rewrite Es. cbn [m_bind]. rewrite Ei, Emm. cbn [b_interval b_matrix].
  set (n := u32 (b_next s + 1)).
  assert (Hn : n < 2 ^ 32) by (unfold n, u32; apply N.mod_lt; discriminate).
  assert (Fin : forall m0 c f, holds m0 0 c f ->
    match (if dims =? 0 then MOk m0 else m_projection junk coin m0 dims) with
    | MOk m => cluster m fuel my_k period
    | MErr MOob => PErr POob
    | MErr MExit => PErr PExit
    end = PErr PExit -> True) by auto.
  assert (Clu : forall m0 c f, holds m0 0 c f -> cluster m0 fuel my_k period = PErr PExit).
  { intros m0 c f (R & _). unfold cluster.
    assert (X : forall k, do_one_pam m0 fuel k period = PErr PExit).
    { intro k. unfold do_one_pam, pam_initialise. destruct (N.eqb_spec k 0) as [|Hk]; [reflexivity|].
      rewrite R. cbn [N.to_nat init_loop p_bind length N.of_nat].
      destruct (N.ltb_spec 0 k); [reflexivity|lia]. }
    destruct (negb (my_k =? 0)); [now rewrite X|]. cbn [sweep]. now rewrite X. }
  clear Fin.
  destruct (N.eq_dec n cols0) as [En|En].
  - (* realloc(0) *)
    unfold m_resize. destruct Hm as (M1 & M2 & _). rewrite M2, En, N.eqb_refl. cbn [m_bind].
    unfold bytes. rewrite N.mul_0_l. reflexivity.
  - destruct (resize_ok junk m rows0 cols0 _ 0 n Hm) as (m1 & E1 & H1); [reflexivity|contradiction|].
    rewrite E1. cbn [m_bind]. destruct (N.eqb_spec dims 0) as [_|Hd0].
    + exact (Clu m1 _ _ H1).
    + destruct (projection_ok junk coin m1 0 n dims _ H1) as (m2 & E2 & H2).
      { reflexivity. }
      { change (2 ^ 61) with (2 ^ 33 * 2 ^ 28). apply N.mul_lt_mono; [|exact Hd].
        eapply N.lt_trans; [exact Hn|reflexivity]. }
      rewrite E2. exact (Clu m2 _ _ H2).
Qed.

(** ** Signed distances *)
Lemma gap_signed : forall x y, (Z.abs (x - y) < 9223372036854775808)%Z ->
  gap (Z.to_N (x mod 18446744073709551616)) (Z.to_N (y mod 18446744073709551616)) = Z.abs_N (x - y).
Proof.
  intros x y H. unfold gap.
  assert (L : sub64 (Z.to_N (x mod 18446744073709551616)) (Z.to_N (y mod 18446744073709551616)) < 18446744073709551616)
    by (unfold sub64; apply N.mod_lt; discriminate).
  assert (E : Z.of_N (sub64 (Z.to_N (x mod 18446744073709551616)) (Z.to_N (y mod 18446744073709551616)))
            = ((x - y) mod 18446744073709551616)%Z).
  { rewrite sub64_Z. rewrite !Z2N.id by (apply Z.mod_pos_bound; reflexivity). now rewrite <- Zminus_mod. }
  revert L E. generalize (sub64 (Z.to_N (x mod 18446744073709551616)) (Z.to_N (y mod 18446744073709551616))).
  intros n L E. unfold s64. change w64 with 18446744073709551616. rewrite (N.mod_small n) by exact L.
  assert (C : ((x - y) mod 18446744073709551616 = x - y \/ (x - y) mod 18446744073709551616 = x - y + 18446744073709551616)%Z).
  { destruct (Z.le_gt_cases 0 (x - y)).
    - left. apply Z.mod_small. lia.
    - right. rewrite <- (Z_mod_plus_full (x - y) 1). apply Z.mod_small. lia. }
  destruct (N.ltb_spec n 9223372036854775808); lia.
Qed.

Definition signed_distance (z : N -> N -> Z) (cols a b : N) : N :=
  sum_to (N.to_nat cols) (fun c => Z.abs_N (z a c - z b c)).
Lemma exact_signed : forall f z rows cols,
  (forall a c, a < rows -> c < cols -> f a c = Z.to_N (z a c mod 18446744073709551616)) ->
  (forall a b c, a < rows -> b < rows -> c < cols -> (Z.abs (z a c - z b c) < 9223372036854775808)%Z) ->
  (forall a b, a < rows -> b < rows -> signed_distance z cols a b < 2 ^ 64 - 1) ->
  no_undef f rows cols /\ not_far f rows cols /\
  forall a b, a < rows -> b < rows -> D f cols a b = signed_distance z cols a b.
Proof.
  intros f z rows cols Hf Hz Hs.
  assert (E : forall a b, a < rows -> b < rows -> D f cols a b = signed_distance z cols a b).
  { intros a b Ha Hb. unfold D.
    rewrite (sum_ext _ _ (fun c => Z.abs_N (z a c - z b c))).
    - apply N.mod_small. eapply N.lt_trans; [apply (Hs a b Ha Hb)|reflexivity].
    - intros c Hc. rewrite !Hf by (auto; lia). apply gap_signed. apply Hz; auto. lia. }
  split; [|split; [|exact E]].
  - intros a b c Ha Hb Hc X. specialize (Hz a b c Ha Hb Hc). rewrite !Hf in X by assumption.
    pose proof (sub64_Z (Z.to_N (z a c mod 18446744073709551616)) (Z.to_N (z b c mod 18446744073709551616))) as Q.
    rewrite X in Q. rewrite !Z2N.id in Q by (apply Z.mod_pos_bound; reflexivity). rewrite <- Zminus_mod in Q.
    change (Z.of_N 9223372036854775808) with 9223372036854775808%Z in Q.
    revert Hz Q. generalize (z a c - z b c)%Z. intros w Hw Q. clear - Hw Q.
    destruct (Z.le_gt_cases 0 w).
    + rewrite Z.mod_small in Q by lia. lia.
    + rewrite <- (Z_mod_plus_full w 1), Z.mod_small in Q by lia. lia.
  - intros a b Ha Hb. rewrite E by assumption. specialize (Hs a b Ha Hb). change UMAX with (2 ^ 64 - 1). lia.
Qed.
