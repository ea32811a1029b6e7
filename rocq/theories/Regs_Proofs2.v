(** The register dump: the log as a whole, and its text (C70). *)
Require Import Arith NArith List Bool Lia ZifyBool ZifyN ZifyNat.
Require Import Verif.Word Verif.Regs_Model Verif.Regs_Spec Verif.Regs_Proofs.
Import ListNotations.
Local Open Scope N_scope.

Lemma flat_filter {A B} (f : A -> bool) (g : A -> B) l :
  flat_map (fun x => if f x then [] else [g x]) l = List.map g (filter (fun x => negb (f x)) l).
Proof. induction l; cbn; [reflexivity|]. destruct (f a); cbn; now rewrite IHl. Qed.

Lemma print_changes le p a before :
  answers a -> (forall r, In r all_regs -> val le p r = before r) ->
  print_state le p (get_state le a)
  = List.map (fun r => mk_line r (digits r) (value le a r))
      (filter (fun r => negb (before r =? value le a r)) all_regs).
Proof.
  intros A B. rewrite print_show. rewrite <- flat_filter.
  rewrite !flat_map_concat_map. f_equal. apply map_ext_in. intros r I.
  unfold show. rewrite (val_value le a r A I), (B r I). reflexivity.
Qed.

Lemma log_stopped le d prev l : log le d 0 (Some O) prev l = ([], false).
Proof. induction l as [|((pc, i), a) l IH]; cbn [log]; [reflexivity|exact IH]. Qed.

Lemma log_skip le d skip left prev l : log le d skip left prev l = log le d 0 left prev (skipn skip l).
Proof.
  revert skip. induction l as [|((pc, i), a) l IH]; intros [|k]; cbn [log skipn]; try reflexivity. apply IH.
Qed.

Lemma calls_skipn k l : skipn k (calls l) = calls (skipn k l).
Proof. apply skipn_map. Qed.

Lemma log_story le left : forall l prev before,
  Forall answers (List.map snd (recorded 0 left l)) ->
  (forall r, In r all_regs -> val le prev r = before r) ->
  log le true 0 left prev (calls l) = (story le before (recorded 0 left l), false).
Proof.
  intros l; revert left. induction l as [|((pc, i), a) l IH]; intros left prev before A B.
  - destruct left as [[|n]|]; reflexivity.
  - destruct left as [[|n]|].
    + apply log_stopped.
    + cbn [recorded skipn firstn List.map] in *. inversion A as [|? ? A1 A2]; subst. cbn [snd] in A1.
      change (calls ((pc, i, a) :: l)) with ((pc, i, Some a) :: calls l). cbn [log Nat.pred].
      rewrite (IH (Some n) (get_state le a) (value le a) A2) by (intros; now apply val_value).
      cbn [story]. rewrite (print_changes le prev a before A1 B), map_map. reflexivity.
    + cbn [recorded skipn firstn List.map] in *. inversion A as [|? ? A1 A2]; subst. cbn [snd] in A1.
      change (calls ((pc, i, a) :: l)) with ((pc, i, Some a) :: calls l). cbn [log Nat.pred].
      rewrite (IH None (get_state le a) (value le a) A2) by (intros; now apply val_value).
      cbn [story]. rewrite (print_changes le prev a before A1 B), map_map. reflexivity.
Qed.

Lemma recorded_skip {A} skip left (l : list A) : recorded skip left l = recorded 0 left (skipn skip l).
Proof. reflexivity. Qed.

Theorem log_is le skip left l :
  Forall answers (List.map snd (recorded skip left l)) ->
  log le true skip left zero_state (calls l) = (story le (fun _ => 0) (recorded skip left l), false).
Proof.
  intros A. rewrite log_skip, calls_skipn, recorded_skip. rewrite recorded_skip in A.
  apply log_story; [exact A|]. intros. apply zero_val.
Qed.

(** ** Reading the log *)
Lemma reg_eqb_eq a b : reg_eqb a b = true <-> a = b.
Proof.
  split.
  - destruct a, b; cbn; intros H; try discriminate H; try reflexivity; apply Nat.eqb_eq in H; now subst.
  - intros <-. destruct a; cbn; try reflexivity; apply Nat.eqb_refl.
Qed.

Lemma known_app k0 l l' r : known k0 (l ++ l') r = known (known k0 l) l' r.
Proof.
  revert k0 r l'. induction l as [|[x|pc w] l IH]; intros k0 r l'; cbn [app known]; [|apply IH|apply IH].
  reflexivity.
Qed.
Lemma known_ext l : forall k k' r, k r = k' r -> known k l r = known k' l r.
Proof.
  induction l as [|[x|pc w] l IH]; intros k k' r E; cbn [known]; [exact E| |now apply IH].
  apply IH. cbn. now rewrite E.
Qed.

Lemma known_changes (f : reg -> N) rs : forall k r,
  known k (List.map (fun r => IReg (mk_line r (digits r) (f r))) rs) r = if existsb (reg_eqb r) rs then f r else k r.
Proof.
  induction rs as [|x rs IH]; intros k r; cbn [List.map known existsb]; [reflexivity|].
  rewrite IH. cbn [l_reg l_val].
  destruct (reg_eqb r x) eqn:E.
  - apply reg_eqb_eq in E. subst x. cbn [orb]. now destruct (existsb (reg_eqb r) rs).
  - reflexivity.
Qed.

Local Notation changes le before a :=
  (List.map (fun r => IReg (mk_line r (digits r) (value le a r)))
    (filter (fun r => negb (before r =? value le a r)) all_regs)).
Lemma story_cons le before pc w a l :
  story le before ((pc, w, a) :: l) = changes le before a ++ IInsn pc w :: story le (value le a) l.
Proof. reflexivity. Qed.
Lemma known_filter (rs : list reg) (f before k : reg -> N) r :
  In r rs -> k r = before r ->
  known k (List.map (fun r => IReg (mk_line r (digits r) (f r))) (filter (fun r => negb (before r =? f r)) rs)) r = f r.
Proof.
  intros I B. rewrite known_changes.
  destruct (existsb _ _) eqn:E; [reflexivity|].
  rewrite B. destruct (N.eqb_spec (before r) (f r)) as [V|V]; [exact V|].
  exfalso. apply Bool.not_true_iff_false in E. apply E.
  apply existsb_exists. exists r. split; [|now apply reg_eqb_eq].
  apply filter_In. split; [exact I|]. now rewrite (proj2 (N.eqb_neq _ _) V).
Qed.
Lemma changes_known le before a (k : reg -> N) r :
  In r all_regs -> k r = before r -> known k (changes le before a) r = value le a r.
Proof. exact (known_filter all_regs (value le a) before k r). Qed.
Lemma changes_regs le before a : Forall (fun i => exists x, i = IReg x) (changes le before a).
Proof.
  apply Forall_forall. intros i I. apply in_map_iff in I. destruct I as (r & <- & _). eauto.
Qed.
Lemma insns_app a b : insns (a ++ b) = insns a ++ insns b.
Proof. apply flat_map_app. Qed.
Lemma regs_insns cs : Forall (fun i => exists x, i = IReg x) cs -> insns cs = [].
Proof. intros C. induction C as [|? ? (x & ->) _ IHc]; [reflexivity|exact IHc]. Qed.
Lemma regs_prefix cs pc0 w0 rest : Forall (fun i => exists x, i = IReg x) cs ->
  forall pre pc w post, cs ++ IInsn pc0 w0 :: rest = pre ++ IInsn pc w :: post ->
  (pre = cs /\ pc = pc0 /\ w = w0) \/ exists pre', pre = cs ++ IInsn pc0 w0 :: pre' /\ rest = pre' ++ IInsn pc w :: post.
Proof.
  intros C. induction C as [|? ? (x & ->) _ IHc]; intros pre pc w post H.
  - destruct pre as [|q pre]; cbn [app] in H.
    + injection H as -> -> _. now left.
    + injection H as <- H. right. exists pre. now split.
  - destruct pre as [|q pre]; cbn [app] in H; [discriminate H|].
    injection H as <- H. destruct (IHc pre pc w post H) as [(-> & -> & ->)|(pre' & -> & E)].
    + now left.
    + right. exists pre'. now split.
Qed.

Lemma story_known le : forall l before k pre pc w post,
  story le before l = pre ++ IInsn pc w :: post ->
  (forall r, In r all_regs -> k r = before r) ->
  exists a, nth_error l (length (insns pre)) = Some (pc, w, a)
            /\ forall r, In r all_regs -> known k pre r = value le a r.
Proof.
  induction l as [|((pc0, w0), a0) l IH]; intros before k pre pc w post H B.
  - destruct pre; discriminate H.
  - rewrite story_cons in H.
    assert (K : forall r, In r all_regs -> known k (changes le before a0) r = value le a0 r)
      by (intros r I; apply changes_known; [exact I|exact (B r I)]).
    pose proof (regs_insns _ (changes_regs le before a0)) as Ci.
    destruct (regs_prefix _ _ _ _ (changes_regs le before a0) _ _ _ _ H) as [(-> & -> & ->)|(pre' & -> & E)].
    + exists a0. rewrite Ci. split; [reflexivity|exact K].
    + destruct (IH (value le a0) (known k (changes le before a0)) pre' pc w post E K) as (a & N1 & N2).
      exists a. split.
      * rewrite insns_app, Ci. exact N1.
      * intros r I. rewrite known_app. cbn [known]. apply N2, I.
Qed.

Theorem replay le skip left l its :
  Forall answers (List.map snd (recorded skip left l)) ->
  log le true skip left zero_state (calls l) = (its, false) ->
  forall pre pc w post, its = pre ++ IInsn pc w :: post ->
  exists a, nth_error (recorded skip left l) (length (insns pre)) = Some (pc, w, a)
            /\ forall r, In r all_regs -> known (fun _ => 0) pre r = value le a r.
Proof.
  intros A H pre pc w post E. rewrite (log_is le skip left l A) in H.
  apply (f_equal fst) in H. cbn [fst] in H.
  eapply story_known; [rewrite H; exact E|reflexivity].
Qed.

Lemma story_insns le : forall l before, insns (story le before l) = List.map fst l.
Proof.
  induction l as [|((pc, w), a) l IH]; intros before; [reflexivity|].
  rewrite story_cons, insns_app, (regs_insns _ (changes_regs le before a)).
  cbn [List.map fst app]. rewrite <- (IH (value le a)). reflexivity.
Qed.

Theorem instructions le dump skip left : forall l,
  Forall answers (List.map snd (recorded skip left l)) ->
  insns (fst (log le dump skip left zero_state (calls l))) = List.map fst (recorded skip left l)
  /\ snd (log le dump skip left zero_state (calls l)) = false.
Proof.
  intros l A. destruct dump.
  - rewrite (log_is le skip left l A). split; [apply story_insns|reflexivity].
  - rewrite log_skip, calls_skipn, recorded_skip. generalize (skipn skip l) as l'. clear l A.
    intros l. generalize zero_state as prev. revert left.
    induction l as [|((pc, w), a) l IH]; intros left prev.
    + destruct left as [[|n]|]; split; reflexivity.
    + destruct left as [[|n]|].
      * rewrite log_stopped. split; reflexivity.
      * change (calls ((pc, w, a) :: l)) with ((pc, w, Some a) :: calls l). cbn [log Nat.pred].
        specialize (IH (Some n) prev). destruct (log le false 0 (Some n) prev (calls l)) as [r e].
        cbn [fst snd] in *. destruct IH as [I1 I2]. split; [|exact I2].
        cbn [recorded skipn firstn List.map fst]. cbn [recorded skipn] in I1. rewrite <- I1. reflexivity.
      * change (calls ((pc, w, a) :: l)) with ((pc, w, Some a) :: calls l). cbn [log Nat.pred].
        specialize (IH None prev). destruct (log le false 0 None prev (calls l)) as [r e].
        cbn [fst snd] in *. destruct IH as [I1 I2]. split; [|exact I2].
        cbn [recorded skipn List.map fst]. cbn [recorded skipn] in I1. rewrite <- I1. reflexivity.
Qed.

(** ** The text *)
Definition undigit (c : N) : N := if c <? 58 then c - 48 else c - 87.
Fixpoint unhex (acc : N) (l : list N) : N :=
  match l with [] => acc | c :: l' => unhex (16 * acc + undigit c) l' end.
Lemma undigit_digit n : n < 16 -> undigit (digit n) = n.
Proof. unfold undigit, digit. intros. destruct (N.ltb_spec n 10); [destruct (N.ltb_spec (48 + n) 58)|destruct (N.ltb_spec (87 + n) 58)]; lia. Qed.

Lemma unhex_hex n : forall v acc, unhex acc (hex n v) = acc * 16 ^ N.of_nat n + v mod 16 ^ N.of_nat n.
Proof.
  induction n as [|n IH]; intros v acc.
  - cbn [hex unhex]. change (N.of_nat 0) with 0. rewrite N.pow_0_r, N.mod_1_r. lia.
  - cbn [hex unhex]. rewrite undigit_digit by (apply N.mod_lt; discriminate).
    rewrite IH, Nat2N.inj_succ, N.pow_succ_r'.
    assert (P : 16 ^ N.of_nat n <> 0) by (apply N.pow_nonzero; discriminate).
    rewrite (N.mul_comm 16 (16 ^ N.of_nat n)), (N.mod_mul_r v (16 ^ N.of_nat n) 16) by (exact P || discriminate).
    lia.
Qed.
Lemma hex_length n v : length (hex n v) = n.
Proof. induction n; cbn; [reflexivity|]. now rewrite IHn. Qed.
Lemma hex_inj n v v' : v < 16 ^ N.of_nat n -> v' < 16 ^ N.of_nat n -> hex n v = hex n v' -> v = v'.
Proof.
  intros H H' E. apply (f_equal (unhex 0)) in E. rewrite !unhex_hex, !N.mul_0_l, !N.add_0_l in E.
  now rewrite !N.mod_small in E by assumption.
Qed.

Fixpoint word (l : list N) : list N :=
  match l with [] => [] | c :: l' => if c =? 32 then [] else c :: word l' end.
Definition short (r : reg) : list N := word (name r).

Fixpoint list_eqb (a b : list N) : bool :=
  match a, b with [], [] => true | x :: a', y :: b' => (x =? y) && list_eqb a' b' | _, _ => false end.
Lemma list_eqb_refl a : list_eqb a a = true.
Proof. induction a; cbn; [reflexivity|]. now rewrite N.eqb_refl. Qed.

Lemma short_inj r r' : In r all_regs -> In r' all_regs -> short r = short r' -> r = r'.
Proof.
  intros I I' E.
  assert (X : forallb (fun r => forallb (fun r' => implb (list_eqb (short r) (short r')) (reg_eqb r r')) all_regs) all_regs = true)
    by (vm_compute; reflexivity).
  rewrite forallb_forall in X. specialize (X r I). rewrite forallb_forall in X. specialize (X r' I').
  rewrite E, list_eqb_refl in X. now apply reg_eqb_eq.
Qed.
Lemma word_name r rest : In r all_regs -> word (name r ++ 32 :: rest) = short r.
Proof.
  intros I. unfold short. 
  assert (X : forallb (fun r => true) all_regs = true) by reflexivity. clear X.
  generalize (name r) as l. induction l as [|c l IH]; cbn; [reflexivity|].
  destruct (c =? 32); [reflexivity|]. now rewrite IH.
Qed.

Lemma app_inv_len {A} (a a' b b' : list A) : length a = length a' -> a ++ b = a' ++ b' -> a = a' /\ b = b'.
Proof.
  revert a'. induction a as [|x a IH]; intros [|x' a'] L E; try discriminate L; [now split|].
  cbn in E. injection E as -> E. destruct (IH a' (f_equal Nat.pred L) E) as [-> ->]. now split.
Qed.

Theorem render_inj x y : proper x -> proper y -> render x = render y -> x = y.
Proof.
  destruct x as [r w v], y as [r' w' v']. unfold proper. cbn [l_reg l_width l_val].
  intros (I & W & V) (I' & W' & V') E. unfold render in E. cbn [l_reg l_width l_val] in E.
  change ([9] ++ ?q) with (9 :: q) in E. apply (f_equal (@tl N)) in E. cbn [tl] in E.
  assert (R : r = r').
  { apply short_inj; [exact I|exact I'|].
    apply (f_equal word) in E. change ([32; 48; 120] ++ ?q) with (32 :: 48 :: 120 :: q) in E.
    rewrite (word_name r _ I), (word_name r' _ I') in E. exact E. }
  subst r' w w'.
  apply app_inv_head in E. apply app_inv_head in E.
  apply app_inv_tail in E.
  assert (G : v = v'); [|now rewrite G].
  destruct (digits r).
  - now apply (hex_inj 8).
  - now apply (hex_inj 16).
  - apply app_inv_len in E; [|now rewrite !hex_length]. destruct E as [E1 E2].
    change 0xffffffffffffffff with (N.ones 64) in E2. rewrite !N.land_ones in E2. rewrite !N.shiftr_div_pow2 in E1.
    apply hex_inj in E1; [|apply N.div_lt_upper_bound; [discriminate|exact V]|apply N.div_lt_upper_bound; [discriminate|exact V']].
    apply hex_inj in E2; [|now apply N.mod_lt|now apply N.mod_lt].
    rewrite (N.div_mod v (2 ^ 64)), (N.div_mod v' (2 ^ 64)) by discriminate. now rewrite E1, E2.
Qed.

Lemma value_fits le a r : answers a ->
  value le a r < match digits r with W32 => 2 ^ 32 | W64 => 2 ^ 64 | W128 => 2 ^ 128 end.
Proof.
  intros (L & G & V & F & X & C & K & Xr & Cc & Vs).
  destruct r as [i|i| | |i| | | | |]; cbn [digits value]; auto; try (apply N.mod_lt; discriminate).
  - specialize (F i). specialize (X i). change (2 ^ 128) with (2 ^ 64 * 2 ^ 64). destruct le; nia.
  - apply N.lt_trans with (2 ^ 32); [apply N.mod_lt; discriminate|reflexivity].
Qed.

Theorem lines_proper le skip left l x :
  Forall answers (List.map snd (recorded skip left l)) ->
  In (IReg x) (fst (log le true skip left zero_state (calls l))) -> proper x.
Proof.
  intros A H. rewrite (log_is le skip left l A) in H. cbn [fst] in H. revert H.
  generalize (fun _ : reg => 0). induction (recorded skip left l) as [|((pc, w), a) m IH]; intros b H; [contradiction|].
  cbn [List.map snd] in A. inversion A as [|? ? A1 A2]; subst.
  rewrite story_cons in H. apply in_app_or in H. destruct H as [H|[H|H]]; [|discriminate H|now apply (IH A2 (value le a))].
  apply in_map_iff in H. destruct H as (r & E & I). injection E as <-. apply filter_In in I. destruct I as [I _].
  unfold proper. cbn [l_reg l_width l_val]. split; [exact I|]. split; [reflexivity|]. now apply value_fits.
Qed.

(** ** Against the architecture *)
Definition one : answer :=
  mk_answer (repeat 0 32) 0 0 0 0 (repeat 0 33) 0 (0x3ff0000000000000 :: repeat 0 32) (repeat 0 32).
Lemma one_answers : answers one.
Proof.
  assert (Z : forall n i, nth i (repeat 0 n) 0 = 0).
  { intros n i. apply nth_repeat. }
  unfold answers, one. cbn [a_gpr a_ctr a_link a_xer a_ccr a_vr a_vrsave a_fpr a_vsx].
  split; [reflexivity|]. split; [intros; rewrite Z; reflexivity|]. split; [intros; rewrite Z; reflexivity|].
  split; [intros [|i]; [reflexivity|]; cbn [nth]; rewrite Z; reflexivity|].
  split; [intros; rewrite Z; reflexivity|]. repeat split.
Qed.
Lemma big_endian_vsr a i : value false a (VSR i) = vsr a i.
Proof. reflexivity. Qed.
