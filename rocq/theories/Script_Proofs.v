(** The statistics script: proofs of C73. *)
Require Import Arith NArith List Bool Lia ZifyBool ZifyN ZifyNat.
Require Import Verif.Word Verif.Args_Model Verif.Regs_Model Verif.Regs_Proofs2 Verif.Script_Model Verif.Script_Spec.
Require Verif.Stats_Model Verif.Stats_Spec Verif.Stats_Proofs.
Import ListNotations.
Local Open Scope N_scope.

Lemma word_eqb_eq a b : word_eqb a b = true <-> a = b.
Proof.
  revert b. induction a as [|x a IH]; intros [|y b]; cbn; split; intros H; try discriminate H; try reflexivity.
  - apply andb_true_iff in H. destruct H as [H1 H2]. apply N.eqb_eq in H1. apply IH in H2. now subst.
  - injection H as -> ->. rewrite N.eqb_refl. now apply IH.
Qed.

(** ** Counting *)
Lemma lookup_add {A} (eqb : A -> A -> bool) (E : forall a b, eqb a b = true <-> a = b) k k' l :
  lookup eqb k (add_one eqb k' l) = lookup eqb k l + (if eqb k k' then 1 else 0).
Proof.
  induction l as [|[x n] l IH]; cbn [add_one lookup].
  - destruct (eqb k k'); reflexivity.
  - destruct (eqb k' x) eqn:X; cbn [lookup].
    + apply E in X. subst x. destruct (eqb k k'); lia.
    + destruct (eqb k x) eqn:Y; [|exact IH].
      destruct (eqb k k') eqn:Z; [|lia]. exfalso. apply E in Y, Z. subst k'. rewrite Y in X.
      assert (eqb x x = true) by (now apply E). congruence.
Qed.

Lemma sys_eq a : (N.shiftr a 60 =? 0xc) = (12 * 2 ^ 60 <=? a) && (a <? 13 * 2 ^ 60).
Proof.
  rewrite N.shiftr_div_pow2. pose proof (N.div_mod a (2 ^ 60) ltac:(discriminate)) as D.
  pose proof (N.mod_lt a (2 ^ 60) ltac:(discriminate)) as M.
  change (2 ^ 60) with 1152921504606846976 in *. lia.
Qed.
Lemma opal_eq a : a < 2 ^ 64 -> (N.land a 0xffffffffff000000 =? 0x30000000) = (a / 2 ^ 24 =? 0x30).
Proof. intros H. rewrite (Stats_Proofs.land_hi a 24 40 0xFFFFFFFFFF000000 eq_refl H). clear. lia. Qed.
Lemma opal_not_sys a : (a / 2 ^ 24 =? 0x30) = true -> (12 * 2 ^ 60 <=? a) && (a <? 13 * 2 ^ 60) = false.
Proof.
  intros H. pose proof (N.div_mod a (2 ^ 24) ltac:(discriminate)) as D.
  pose proof (N.mod_lt a (2 ^ 24) ltac:(discriminate)) as M.
  change (2 ^ 60) with 1152921504606846976 in *. change (2 ^ 24) with 16777216 in *. lia.
Qed.

Lemma lookup_small k : In k exception_lookup -> k < 4096.
Proof.
  intros I. assert (X : forallb (fun k => k <? 4096) exception_lookup = true) by reflexivity.
  rewrite forallb_forall in X. specialize (X k I). lia.
Qed.
Lemma entry_eq a k : a < 2 ^ 64 -> In k exception_lookup ->
  is_entry a && (k =? N.land a 0xfff) = (a =? k) || (a =? 12 * 2 ^ 60 + 0x4000 + k).
Proof.
  intros H I. unfold is_entry. rewrite (Stats_Proofs.land_hi a 12 52 0xfffffffffffff000 eq_refl H).
  change 0xfff with (N.ones 12). rewrite N.land_ones.
  pose proof (N.div_mod a (2 ^ 12) ltac:(discriminate)) as D.
  pose proof (N.mod_lt a (2 ^ 12) ltac:(discriminate)) as M.
  pose proof (lookup_small k I) as K.
  change (2 ^ 12) with 4096 in *. change (12 * 2 ^ 60 + 0x4000 + k) with (13835058055282180096 + k).
  change 0xc000000000004000 with 13835058055282180096.
  destruct (k =? a mod 4096) eqn:E.
  - apply N.eqb_eq in E. rewrite <- E.
    replace (existsb (N.eqb k) exception_lookup) with true
      by (symmetry; apply existsb_exists; exists k; split; [exact I|apply N.eqb_refl]).
    destruct (a / 4096 * 4096 =? 13835058055282180096) eqn:E1; destruct (a / 4096 * 4096 =? 0) eqn:E2; cbn [negb andb]; lia.
  - rewrite andb_false_r. lia.
Qed.
Lemma entry_not a k : a < 2 ^ 64 -> ~ In k exception_lookup -> is_entry a && (k =? N.land a 0xfff) = false.
Proof.
  intros H I. destruct (k =? N.land a 0xfff) eqn:E; [|apply andb_false_r].
  apply N.eqb_eq in E. rewrite andb_true_r. unfold is_entry.
  destruct (_ && _); [reflexivity|]. rewrite <- E. apply not_true_iff_false. intros X.
  apply existsb_exists in X. destruct X as (y & Y & Z). apply N.eqb_eq in Z. subst y. now apply I.
Qed.
Lemma entry_key a : is_entry a = true -> In (N.land a 0xfff) exception_lookup.
Proof.
  unfold is_entry. destruct (_ && _); [discriminate|]. intros X.
  apply existsb_exists in X. destruct X as (y & Y & Z). apply N.eqb_eq in Z. now subst y.
Qed.

Lemma count_cons {A} (f : A -> bool) x l : count f (x :: l) = (if f x then count f l + 1 else count f l).
Proof. unfold count. cbn [filter]. destruct (f x); [|reflexivity]. cbn [length]. lia. Qed.

Lemma tells0 : tells [] pst0.
Proof. constructor; try reflexivity; intros; reflexivity. Qed.

Lemma tells_step p s x : pl_addr x < 2 ^ 64 -> tells p s -> tells (x :: p) (parse_one s x).
Proof.
  intros H T. destruct T as [Ts To Tu Ti Tw Te T0 Tc Tn Tb].
  assert (K : N.shiftr (pl_addr x) 60 =? 0xc = kernel_c x) by apply sys_eq.
  assert (O : negb (kernel_c x) && (N.land (pl_addr x) 0xffffffffff000000 =? 0x30000000) = opal_c x).
  { rewrite (opal_eq _ H). unfold kernel_c, opal_c. destruct (pl_addr x / 2 ^ 24 =? 0x30) eqn:E; [|apply andb_false_r].
    now rewrite (opal_not_sys _ E). }
  assert (C : In 0xc00 exception_lookup) by (do 14 right; now left).
  assert (E : is_entry (pl_addr x) && (N.land (pl_addr x) 0xfff =? 0xc00) = enters 0xc00 x).
  { rewrite (N.eqb_sym _ 0xc00). now apply entry_eq. }
  constructor; unfold parse_one; cbn [i_system i_opal i_user i_idle i_switches i_exc i_calls i_entry i_branch].
  - rewrite K, count_cons, Ts. reflexivity.
  - rewrite K, O, count_cons, To. reflexivity.
  - rewrite K, O, count_cons, Tu. unfold user_c. reflexivity.
  - rewrite count_cons, Ti. reflexivity.
  - rewrite count_cons, Tw. reflexivity.
  - intros k I. rewrite count_cons, <- (Te k I). unfold enters at 1. rewrite <- (entry_eq _ k H I).
    destruct (is_entry (pl_addr x)); cbn [andb]; [|reflexivity].
    rewrite (lookup_add N.eqb N.eqb_eq). destruct (k =? _); lia.
  - intros k I. pose proof (entry_not _ k H I) as X.
    destruct (is_entry (pl_addr x)) eqn:Y; [|now apply T0]. cbn [andb] in X.
    rewrite (lookup_add N.eqb N.eqb_eq), X, (T0 k I). reflexivity.
  - intros n. cbn [calls_of]. rewrite Tb, <- (Tc n). destruct (called_b p); cbn [andb]; [|lia].
    rewrite (lookup_add word_eqb word_eqb_eq). lia.
  - rewrite E, Tn. cbn [pending]. fold (is_bctrl x). destruct (is_bctrl x), (enters 0xc00 x || pending p); reflexivity.
  - rewrite E, Tn. cbn [called_b]. fold (is_bctrl x). apply andb_comm.
Qed.

Theorem counts l : Forall (fun x => pl_addr x < 2 ^ 64) l -> tells (rev l) (fold_left parse_one l pst0).
Proof.
  rewrite <- (rev_involutive l). generalize (rev l) as r. clear l. intros r F. rewrite rev_involutive.
  rewrite <- fold_left_rev_right, rev_involutive.
  apply Forall_rev in F. rewrite rev_involutive in F.
  induction F as [|x r X _ IH]; [exact tells0|]. cbn [fold_right]. now apply tells_step.
Qed.

(** ** System calls *)
Lemma pending_iff p : pending p = true <->
  exists mid e r, p = mid ++ e :: r /\ enters 0xc00 e = true /\ Forall (fun x => is_bctrl x = false) (mid ++ [e]).
Proof.
  induction p as [|x p IH]; cbn [pending].
  - split; [discriminate|]. intros (mid & e & r & H & _). destruct mid; discriminate H.
  - rewrite andb_true_iff, orb_true_iff, negb_true_iff. split.
    + intros [B [E|P]].
      * exists [], x, p. repeat split; [exact E|now repeat constructor].
      * apply IH in P. destruct P as (mid & e & r & -> & E & F). exists (x :: mid), e, r.
        repeat split; [exact E|]. now constructor.
    + intros (mid & e & r & H & E & F). destruct mid as [|y mid]; cbn [app] in *.
      * injection H as -> ->. inversion F; subst. split; [assumption|now left].
      * injection H as -> ->. inversion F; subst. split; [assumption|]. right. apply IH. exists mid, e, r. now repeat split.
Qed.
Theorem called_iff p : called_b p = true <-> called p.
Proof.
  unfold called. destruct p as [|b p]; cbn [called_b].
  - split; [discriminate|]. intros (b & r & mid & e & r' & H & _). discriminate H.
  - rewrite andb_true_iff, orb_true_iff. split.
    + intros [B [E|P]].
      * exists b, p, [], b, p. repeat split; try assumption. constructor.
      * apply pending_iff in P. destruct P as (mid & e & r & -> & E & F).
        exists b, (mid ++ e :: r), (b :: mid), e, r. now repeat split.
    + intros (b' & r & mid & e & r' & H & B & H' & E & F). injection H as <- <-. split; [exact B|].
      destruct mid as [|y mid]; cbn [app tl] in *.
      * injection H' as <- <-. now left.
      * injection H' as <- ->. right. apply pending_iff. exists mid, e, r'. now repeat split.
Qed.

(** ** Sums *)
Theorem classes l : count kernel_c l + count opal_c l + count user_c l = N.of_nat (length l).
Proof.
  induction l as [|x l IH]; [reflexivity|]. rewrite !count_cons. cbn [length].
  assert (X : opal_c x = true -> kernel_c x = false) by (apply opal_not_sys).
  change (user_c x) with (negb (kernel_c x) && negb (opal_c x)).
  destruct (kernel_c x), (opal_c x); cbn [negb andb]; try (specialize (X eq_refl); discriminate X); lia.
Qed.

(** ** Against qtdis -s *)
Lemma events_count (f : N * N -> bool) p : Stats_Spec.events (Stats_Spec.newest f) p = count f p.
Proof.
  induction p as [|x p IH]; [reflexivity|]. rewrite count_cons. cbn [Stats_Spec.events Stats_Spec.newest]. rewrite IH.
  destruct (f x); lia.
Qed.
Lemma count_same (f : pline -> bool) (g : N * N -> bool) l xs :
  Forall2 (fun x y => f x = g y) l xs -> count f l = count g xs.
Proof. intros H. induction H as [|x y l xs E _ IH]; [reflexivity|]. rewrite !count_cons, E, IH. reflexivity. Qed.
Lemma count_rev {A} (f : A -> bool) l : count f (rev l) = count f l.
Proof.
  unfold count. f_equal. induction l as [|x l IH]; [reflexivity|]. cbn [rev filter].
  rewrite filter_app, app_length, IH. cbn [filter]. destruct (f x); cbn; lia.
Qed.

Theorem agrees l xs :
  Forall Stats_Spec.wf xs -> List.map pl_addr l = List.map fst xs ->
  Forall (fun x => fst x < 13 * 2 ^ 60) xs ->
  let s := fold_left parse_one l pst0 in
  exists t, Stats_Model.log_all Stats_Model.stt0 xs = Some t
  /\ Stats_Model.t_system t = i_system s mod 2 ^ 64
  /\ Stats_Model.t_opal t = i_opal s mod 2 ^ 64
  /\ Stats_Model.t_user t = i_user s mod 2 ^ 64
  /\ forall k a, nth_error Stats_Model.exceptions k = Some a ->
       nth_error (Stats_Model.t_exc t) k = Some (lookup N.eqb a (i_exc s) mod 2 ^ 64).
Proof.
  intros W E B s. destruct (Stats_Proofs.log_spec xs W) as (t & L & R). exists t. split; [exact L|].
  assert (F2 : Forall2 (fun x y => pl_addr x = fst y /\ Stats_Spec.wf y /\ fst y < 13 * 2 ^ 60) l xs).
  { clear L R s t. revert xs W E B. induction l as [|x l IH]; intros [|y xs] W E B; try discriminate E; [constructor|].
    cbn [List.map] in E. injection E as E1 E2. inversion W as [|? ? W1 W2]; inversion B as [|? ? B1 B2]; subst.
    constructor; [split; [exact E1|split; assumption]|]. now apply IH. }
  assert (A : Forall (fun x => pl_addr x < 2 ^ 64) l).
  { clear - F2. induction F2 as [|x y l xs (E & [W _] & _) _ IH]; constructor; [now rewrite E|exact IH]. }
  pose proof (counts l A) as T. fold s in T.
  assert (G : forall f g, (forall x y, pl_addr x = fst y -> Stats_Spec.wf y -> fst y < 13 * 2 ^ 60 -> f x = g y) ->
              Stats_Spec.events (Stats_Spec.newest g) (rev xs) = count f (rev l)).
  { intros f g H. rewrite events_count, !count_rev. symmetry. apply count_same.
    clear - F2 H. induction F2 as [|x y l xs (E & W & B) _ IH]; constructor; [now apply H|exact IH]. }
  split; [|split; [|split]].
  - rewrite (Stats_Spec.e_system _ _ R), (t_sys _ _ T). f_equal. apply G. intros x y X Y Z.
    unfold kernel_c, Stats_Spec.kernel. rewrite X. replace (fst y <? 13 * 2 ^ 60) with true by lia. now rewrite andb_true_r.
  - rewrite (Stats_Spec.e_opal _ _ R), (t_opal _ _ T). f_equal. apply G. intros x y X Y Z.
    unfold opal_c, Stats_Spec.opal. now rewrite X.
  - rewrite (Stats_Spec.e_user _ _ R), (t_user _ _ T). f_equal. apply G. intros x y X Y Z.
    unfold user_c, Stats_Spec.user, kernel_c, Stats_Spec.kernel, opal_c, Stats_Spec.opal. rewrite X.
    replace (fst y <? 13 * 2 ^ 60) with true by lia. now rewrite andb_true_r.
  - intros k a K. destruct (Stats_Spec.e_exc _ _ R) as (_ & N1 & _).
    rewrite N1 by (apply nth_error_Some; congruence).
    assert (I : In a exception_lookup).
    { assert (X : forallb (fun a => existsb (N.eqb a) exception_lookup) Stats_Model.exceptions = true) by reflexivity.
      rewrite forallb_forall in X. specialize (X a (nth_error_In _ _ K)). apply existsb_exists in X.
      destruct X as (y & Y & Z). apply N.eqb_eq in Z. now subst. }
    rewrite (t_exc _ _ T a I). f_equal. f_equal. apply G. intros x y X Y Z.
    unfold Stats_Spec.exception, enters. rewrite K, X. reflexivity.
Qed.
