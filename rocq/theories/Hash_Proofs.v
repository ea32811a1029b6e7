Require Import NArith ZArith List Bool Lia ZifyBool ZifyN ZifyNat.
Require Import Verif.Word Verif.Codec_Types Verif.Hash_Model Verif.Hash_Spec.
Import ListNotations.
Local Open Scope N_scope.

Lemma w32_W32 : w32 = W32. Proof. reflexivity. Qed.
Lemma u32_mod : forall x, u32 x = x mod W32.
Proof. reflexivity. Qed.
Lemma u32_lt : forall x, u32 x < W32.
Proof. intros. rewrite u32_mod. apply N.mod_lt. unfold W32; lia. Qed.
Lemma u32_small : forall x, x < W32 -> u32 x = x.
Proof. intros. rewrite u32_mod. apply N.mod_small; assumption. Qed.

Lemma rot_rotl : forall x k, x < W32 -> 0 < k < 32 -> rot x k = rotl x k.
Proof.
  intros x k Hx Hk. unfold rot, rotl. rewrite u32_mod, N.shiftr_div_pow2.
  assert (Hd : x / 2 ^ (32 - k) < 2 ^ k).
  { apply N.div_lt_upper_bound; [apply N.pow_nonzero; lia|]. rewrite <- N.pow_add_r. replace (32 - k + k) with 32 by lia. exact Hx. }
  assert (Hm : (x * 2 ^ k) mod W32 = 2 ^ k * (x mod 2 ^ (32 - k))).
  { rewrite (N.mul_comm x). replace W32 with (2 ^ k * 2 ^ (32 - k)) by (rewrite <- N.pow_add_r; replace (k + (32 - k)) with 32 by lia; reflexivity).
    rewrite N.mul_mod_distr_l by (apply N.pow_nonzero; lia). reflexivity. }
  rewrite Hm.
  rewrite N.mul_comm.
  rewrite <- N.shiftl_mul_pow2.
  rewrite <- N.lxor_lor, N.add_nocarry_lxor; try reflexivity; apply N.bits_inj_0; intro n; rewrite N.land_spec;
    (destruct (N.lt_ge_cases n k) as [L|L];
     [rewrite N.shiftl_spec_low by exact L; reflexivity
     |rewrite andb_comm; replace (N.testbit (x / 2 ^ (32 - k)) n) with false; [reflexivity|];
      symmetry; rewrite <- (N.mod_small _ _ Hd); apply N.mod_pow2_bits_high; exact L]).
Qed.

Lemma lxor_lt : forall x y, x < W32 -> y < W32 -> N.lxor x y < W32.
Proof.
  intros x y Hx Hy. change W32 with (2 ^ 32) in *.
  assert (E : N.lxor x y = N.lxor x y mod 2 ^ 32).
  { apply N.bits_inj. intro n. destruct (N.lt_ge_cases n 32) as [L|L].
    - rewrite N.mod_pow2_bits_low by exact L. reflexivity.
    - rewrite N.mod_pow2_bits_high by exact L. rewrite N.lxor_spec.
      rewrite <- (N.mod_small _ _ Hx), <- (N.mod_small _ _ Hy), !N.mod_pow2_bits_high by exact L. reflexivity. }
  rewrite E. apply N.mod_lt. discriminate.
Qed.
Lemma rotl_lt : forall x k, x < W32 -> 0 < k < 32 -> rotl x k < W32.
Proof.
  intros x k Hx Hk. unfold rotl.
  assert (Hd : x / 2 ^ (32 - k) < 2 ^ k).
  { apply N.div_lt_upper_bound; [apply N.pow_nonzero; lia|]. rewrite <- N.pow_add_r. replace (32 - k + k) with 32 by lia. exact Hx. }
  assert (EW : W32 = 2 ^ k * 2 ^ (32 - k)) by (rewrite <- N.pow_add_r; replace (k + (32 - k)) with 32 by lia; reflexivity).
  assert (Hm : (x * 2 ^ k) mod W32 = 2 ^ k * (x mod 2 ^ (32 - k))).
  { rewrite (N.mul_comm x), EW. apply N.mul_mod_distr_l; apply N.pow_nonzero; lia. }
  rewrite Hm. assert (Hr : x mod 2 ^ (32 - k) < 2 ^ (32 - k)) by (apply N.mod_lt, N.pow_nonzero; lia).
  rewrite EW. nia.
Qed.
Lemma sub32_spec : forall x y, y < W32 -> sub32 x y = (x + W32 - y) mod W32.
Proof. intros. unfold sub32. rewrite w32_W32, (N.mod_small y) by assumption. reflexivity. Qed.
Lemma modW_lt : forall x, x mod W32 < W32.
Proof. intro. apply N.mod_lt. discriminate. Qed.

Definition m_step (s : triple) (k : N) : triple :=
  let '(x, y, z) := s in (y, u32 (z + y), N.lxor (sub32 x z) (rot z k)).
Definition f_step (s : triple) (k : N) : triple :=
  let '(x, y, z) := s in (y, z, sub32 (N.lxor x z) (rot z k)).
Lemma mix_fold : forall s, mix s = @fold_left triple N m_step [4; 6; 8; 16; 19; 4] s.
Proof. intros [[a b] c]. reflexivity. Qed.
Lemma final_fold : forall a b c, final (a, b, c) = @fold_left triple N f_step [14; 11; 25; 16; 4; 14; 24] (c, a, b).
Proof. reflexivity. Qed.

Lemma m_step_ok : forall s k, is_triple s -> 0 < k < 32 -> m_step s k = mix_step s k /\ is_triple (mix_step s k).
Proof.
  intros [[x y] z] k (Hx & Hy & Hz) Hk. unfold m_step, mix_step.
  rewrite u32_mod, sub32_spec, rot_rotl by assumption. split; [reflexivity|].
  cbn [is_triple]. repeat split; auto using modW_lt, lxor_lt, rotl_lt.
Qed.
Lemma f_step_ok : forall s k, is_triple s -> 0 < k < 32 -> f_step s k = final_step s k /\ is_triple (final_step s k).
Proof.
  intros [[x y] z] k (Hx & Hy & Hz) Hk. unfold f_step, final_step.
  rewrite rot_rotl by assumption. rewrite sub32_spec by (apply rotl_lt; assumption). split; [reflexivity|].
  cbn [is_triple]. repeat split; auto using modW_lt.
Qed.
Lemma steps_ok : forall (f g : triple -> N -> triple),
  (forall s k, is_triple s -> 0 < k < 32 -> f s k = g s k /\ is_triple (g s k)) ->
  forall ks s, Forall (fun k => 0 < k < 32) ks -> is_triple s ->
  fold_left f ks s = fold_left g ks s /\ is_triple (fold_left g ks s).
Proof.
  intros f g H ks. induction ks as [|k ks IH]; intros s Hk Hs.
  - split; [reflexivity|exact Hs].
  - inversion Hk; subst. destruct (H s k Hs H2) as [E T]. cbn [fold_left]. rewrite E. apply IH; assumption.
Qed.
Lemma mix_spec : forall s, is_triple s -> mix s = spec_mix s /\ is_triple (spec_mix s).
Proof.
  intros s Hs. rewrite mix_fold. unfold spec_mix. apply (steps_ok m_step mix_step m_step_ok); [|exact Hs].
  repeat constructor.
Qed.
Lemma final_spec : forall s, is_triple s -> final s = spec_final s /\ is_triple (spec_final s).
Proof.
  intros [[a b] c] (Ha & Hb & Hc). rewrite final_fold. unfold spec_final.
  destruct (steps_ok f_step final_step f_step_ok [14; 11; 25; 16; 4; 14; 24] (c, a, b)) as [E T].
  - repeat constructor.
  - repeat split; assumption.
  - rewrite E. destruct (fold_left final_step _ _) as [[x y] z]. split; [reflexivity|exact T].
Qed.

(** ** mix and final are bijections *)
Definition unmix_step (s : triple) (k : N) : triple :=
  let '(y, z', x') := s in let z := (z' + W32 - y) mod W32 in
  ((N.lxor x' (rotl z k) + z) mod W32, y, z).
Definition unfinal_step (s : triple) (k : N) : triple :=
  let '(y, z, x') := s in (N.lxor ((x' + rotl z k) mod W32) z, y, z).
Lemma sub_add_mod : forall x y, x < W32 -> y < W32 -> ((x + y) mod W32 + W32 - y) mod W32 = x.
Proof.
  intros x y Hx Hy. unfold W32 in *.
  destruct (N.lt_ge_cases (x + y) 4294967296) as [L|L].
  - rewrite (N.mod_small (x + y)) by assumption. replace (x + y + 4294967296 - y) with (x + 1 * 4294967296) by lia.
    rewrite N.mod_add by lia. apply N.mod_small; assumption.
  - replace (x + y) with (x + y - 4294967296 + 1 * 4294967296) at 1 by lia. rewrite N.mod_add by lia.
    rewrite (N.mod_small (x + y - _)) by lia. rewrite N.mod_small by lia. lia.
Qed.
Lemma add_sub_mod : forall x y, x < W32 -> y < W32 -> ((x + W32 - y) mod W32 + y) mod W32 = x.
Proof.
  intros x y Hx Hy. rewrite N.add_mod_idemp_l by discriminate. replace (x + W32 - y + y) with (x + 1 * W32) by lia.
  rewrite N.mod_add by discriminate. apply N.mod_small; assumption.
Qed.
Lemma lxor_cancel : forall x y, N.lxor (N.lxor x y) y = x.
Proof. intros. rewrite N.lxor_assoc, N.lxor_nilpotent, N.lxor_0_r. reflexivity. Qed.
Lemma unmix_mix : forall s k, is_triple s -> 0 < k < 32 -> unmix_step (mix_step s k) k = s.
Proof.
  intros [[x y] z] k (Hx & Hy & Hz) Hk. unfold mix_step, unmix_step. rewrite sub_add_mod by assumption.
  rewrite lxor_cancel, add_sub_mod by assumption. reflexivity.
Qed.
Lemma mix_unmix : forall s k, is_triple s -> 0 < k < 32 -> mix_step (unmix_step s k) k = s /\ is_triple (unmix_step s k).
Proof.
  intros [[y z'] x'] k (Hy & Hz & Hx) Hk. unfold mix_step, unmix_step. rewrite add_sub_mod by assumption.
  set (z := (z' + W32 - y) mod W32). assert (Lz : z < W32) by apply modW_lt.
  rewrite sub_add_mod by (auto using lxor_lt, rotl_lt). rewrite lxor_cancel. split; [reflexivity|].
  cbn [is_triple]. repeat split; auto using modW_lt.
Qed.
Lemma unfinal_final : forall s k, is_triple s -> 0 < k < 32 -> unfinal_step (final_step s k) k = s.
Proof.
  intros [[x y] z] k (Hx & Hy & Hz) Hk. unfold final_step, unfinal_step. rewrite add_sub_mod by auto using lxor_lt, rotl_lt.
  rewrite lxor_cancel. reflexivity.
Qed.
Lemma final_unfinal : forall s k, is_triple s -> 0 < k < 32 -> final_step (unfinal_step s k) k = s /\ is_triple (unfinal_step s k).
Proof.
  intros [[y z] x'] k (Hy & Hz & Hx) Hk. unfold final_step, unfinal_step. rewrite lxor_cancel.
  rewrite sub_add_mod by auto using rotl_lt. split; [reflexivity|].
  cbn [is_triple]. repeat split; auto using modW_lt, lxor_lt.
Qed.
Lemma fold_inj : forall (g h : triple -> N -> triple),
  (forall s k, is_triple s -> 0 < k < 32 -> h (g s k) k = s) ->
  (forall s k, is_triple s -> 0 < k < 32 -> is_triple (g s k)) ->
  forall ks s t, Forall (fun k => 0 < k < 32) ks -> is_triple s -> is_triple t ->
  fold_left g ks s = fold_left g ks t -> s = t.
Proof.
  intros g h H T ks. induction ks as [|k ks IH]; intros s t Hk Hs Ht E; [exact E|].
  inversion Hk; subst. cbn [fold_left] in E. apply IH in E; auto.
  rewrite <- (H s k), <- (H t k), E by assumption. reflexivity.
Qed.
Lemma fold_surj : forall (g h : triple -> N -> triple),
  (forall s k, is_triple s -> 0 < k < 32 -> g (h s k) k = s /\ is_triple (h s k)) ->
  forall ks s, Forall (fun k => 0 < k < 32) ks -> is_triple s -> exists t, is_triple t /\ fold_left g ks t = s.
Proof.
  intros g h H ks. induction ks as [|k ks IH]; intros s Hk Hs; [exists s; auto|].
  inversion Hk; subst. destruct (IH s H3 Hs) as (t & Tt & E).
  destruct (H t k Tt H2) as [E1 T1]. exists (h t k). split; [exact T1|]. cbn [fold_left]. rewrite E1. exact E.
Qed.
Lemma mix_inj : forall s t, is_triple s -> is_triple t -> mix s = mix t -> s = t.
Proof.
  intros s t Hs Ht E. rewrite (proj1 (mix_spec s Hs)), (proj1 (mix_spec t Ht)) in E.
  revert E. apply (fold_inj mix_step unmix_step); auto using unmix_mix.
  - intros. apply m_step_ok; assumption.
  - repeat constructor.
Qed.
Lemma mix_surj : forall s, is_triple s -> exists t, is_triple t /\ mix t = s.
Proof.
  intros s Hs. destruct (fold_surj mix_step unmix_step mix_unmix [4; 6; 8; 16; 19; 4] s) as (t & Tt & E); [repeat constructor|exact Hs|].
  exists t. split; [exact Tt|]. rewrite (proj1 (mix_spec t Tt)). exact E.
Qed.
Lemma final_inj : forall s t, is_triple s -> is_triple t -> final s = final t -> s = t.
Proof.
  intros [[a b] c] [[a' b'] c'] (Ha & Hb & Hc) (Ha' & Hb' & Hc') E. rewrite !final_fold in E.
  destruct (steps_ok f_step final_step f_step_ok [14; 11; 25; 16; 4; 14; 24] (c, a, b)) as [E1 _];
    [repeat constructor|repeat split; assumption|].
  destruct (steps_ok f_step final_step f_step_ok [14; 11; 25; 16; 4; 14; 24] (c', a', b')) as [E2 _];
    [repeat constructor|repeat split; assumption|].
  rewrite E1, E2 in E. clear E1 E2.
  apply (fold_inj final_step unfinal_step) in E; auto using unfinal_final.
  - injection E as -> -> ->. reflexivity.
  - intros. apply f_step_ok; assumption.
  - repeat constructor.
  - repeat split; assumption.
  - repeat split; assumption.
Qed.
Lemma final_surj : forall s, is_triple s -> exists t, is_triple t /\ final t = s.
Proof.
  intros s Hs.
  destruct (fold_surj final_step unfinal_step final_unfinal [14; 11; 25; 16; 4; 14; 24] s) as ([[c a] b] & (Tc & Ta & Tb) & E);
    [repeat constructor|exact Hs|].
  exists (a, b, c). split; [repeat split; assumption|]. rewrite final_fold.
  destruct (steps_ok f_step final_step f_step_ok [14; 11; 25; 16; 4; 14; 24] (c, a, b)) as [E1 _];
    [repeat constructor|repeat split; assumption|].
  rewrite E1. exact E.
Qed.
