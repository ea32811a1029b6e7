(** Proofs for C58: many instructions. *)
Require Import NArith ZArith List Bool Lia.
Require Import ZifyBool ZifyN ZifyNat.
Require Import Verif.Word Verif.Codec_Types Verif.Codec_Spec.
Require Import Verif.Storage_Spec Verif.Step_Model Verif.Step_Spec Verif.Step_Proofs Verif.Step_Proofs2 Verif.Step_Proofs3.
Require Import Verif.Pagemap_Spec Verif.Pagemap_Proofs.
Require Import Verif.Convert_Spec Verif.Convert_Proofs Verif.Tracer_Model Verif.Tracer_Spec Verif.Tracer_Proofs.
Import ListNotations.
Local Open Scope N_scope.

Definition nlen {A} (l : list A) : N := N.of_nat (length l).
Lemma nlen_snoc : forall A (l : list A) x, nlen (l ++ [x]) = nlen l + 1.
Proof. intros. unfold nlen. rewrite app_length. cbn [length]. lia. Qed.

Lemma wanted_snoc : forall A skip left (l : list A) x, wanted skip left (l ++ [x])
  = wanted skip left l
    ++ if (nlen l <? skip) || (negb (unlimited left) && (left <=? nlen l - skip)) then [] else [x].
Proof.
  intros A skip left l x. unfold wanted, nlen.
  destruct (N.ltb_spec (N.of_nat (length l)) skip) as [H|H]; cbn [orb].
  - rewrite app_nil_r, !skipn_all2 by (rewrite ?app_length; cbn [length]; lia). reflexivity.
  - rewrite skipn_app. replace (N.to_nat skip - length l)%nat with 0%nat by lia. cbn [skipn].
    destruct (unlimited left); cbn [negb andb]; [reflexivity|].
    rewrite firstn_app, skipn_length.
    destruct (N.leb_spec left (N.of_nat (length l) - skip)) as [H'|H'].
    + replace (N.to_nat left - (length l - N.to_nat skip))%nat with 0%nat by lia. cbn [firstn]. reflexivity.
    + replace (N.to_nat left - (length l - N.to_nat skip))%nat
        with (S (N.to_nat left - (length l - N.to_nat skip) - 1)) by lia. cbn [firstn]. rewrite firstn_nil. reflexivity.
Qed.
Lemma wanted_nil : forall A skip left, wanted skip left (@nil A) = [].
Proof. intros. unfold wanted. rewrite skipn_nil, firstn_nil. destruct (unlimited left); reflexivity. Qed.
Lemma wanted_short : forall A skip left (l l' : list A), (length (wanted skip left l) <= length (wanted skip left (l ++ l')))%nat.
Proof.
  intros A skip left l l'. revert l. induction l' as [|x l' IH]; intros l; [rewrite app_nil_r; lia|].
  replace (l ++ x :: l') with ((l ++ [x]) ++ l') by (rewrite <- app_assoc; reflexivity).
  specialize (IH (l ++ [x])). rewrite wanted_snoc, app_length in IH. lia.
Qed.

Lemma told_snoc : forall xl h0 l gs h s g h', told xl h0 l gs h -> says xl h s g h' ->
  told xl h0 (l ++ [s]) (gs ++ [g]) h'.
Proof.
  intros xl h0 l gs h s g h' T X. induction T as [h|h s1 g1 h1 l gs h2 S1 T IH].
  - cbn. econstructor; [exact X|constructor].
  - cbn. econstructor; [exact S1|apply IH, X].
Qed.

Section MANY.
  Variable be xl : bool.
  Variable skip left : N.

  (** Behind the instructions [l] *)
  Definition inv (l : list seen) (s : tstate) : Prop :=
    t_skip s = skip - nlen l
    /\ t_left s = (if unlimited left then left else left - (nlen l - skip))
    /\ exists gs h, told xl [] (wanted skip left l) gs h /\ Forall2 (agrees false) gs (t_out s)
         /\ reached h (t_maps s) /\ (length h <= 2 * length (wanted skip left l))%nat
         /\ Forall (fun q => q_radix_insn q = zero_radix) (t_out s).
  Definition same (s s' : tstate) : Prop := t_pids s' = t_pids s /\ t_done s' = t_done s.
  Definition seen_of (e : event) (a : N) : seen := mk_seen a (word_at e a) (regs_of e) (e_kernel e a).

  Lemma inv_same : forall l s s', inv l s -> t_skip s' = t_skip s -> t_left s' = t_left s -> t_maps s' = t_maps s ->
    t_out s' = t_out s -> inv l s'.
  Proof. intros l s s' (A & B & C) E1 E2 E3 E4. unfold inv. rewrite E1, E2, E3, E4. auto. Qed.

  Lemma print_one : forall e m l s pc, left < 2 ^ 64 -> inv l s ->
    words m -> m pc = e_mem e pc -> m (pc + 4) = e_mem e (pc + 4) -> registers e -> reportable xl e pc ->
    (N.of_nat (length (wanted skip left (l ++ [seen_of e pc]))) < 2 ^ 31) ->
    exists s', print_insn be xl e m s pc = Some s' /\ inv (l ++ [seen_of e pc]) s' /\ same s s'.
  Proof.
    intros e m l s pc LB (I1 & I2 & gs & h & I3 & I4 & I5 & I6 & I7) W M1 M2 G R B. unfold inv. rewrite wanted_snoc, nlen_snoc in *.
    destruct (N.ltb_spec (nlen l) skip) as [SK|SK]; cbn [orb] in *.
    { rewrite app_nil_r in *. exists (set_skip s (t_skip s - 1)). unfold print_insn.
      replace (t_skip s =? 0) with false by lia. split; [reflexivity|]. split; [|split; reflexivity].
      cbn [set_skip t_skip t_left t_out t_maps]. split; [lia|]. split; [rewrite I2; destruct (unlimited left); lia|].
      exists gs, h. auto. }
    destruct (negb (unlimited left) && (left <=? nlen l - skip)) eqn:FU.
    { rewrite app_nil_r in *. apply andb_true_iff in FU. destruct FU as [U FU]. apply negb_true_iff in U. rewrite U in *.
      exists s. unfold print_insn. replace (t_skip s =? 0) with true by lia. cbn [negb].
      destruct R as (_ & RF & _).
      assert (F : fetchable m pc).
      { destruct RF as (w0 & w1 & F). exists w0, w1. rewrite M1, M2. exact F. }
      destruct (read_word be m pc W F) as (w & _ & _ & ->).
      replace (t_left s =? 0) with true by lia. split; [reflexivity|]. split; [|split; reflexivity].
      split; [lia|]. split; [lia|]. exists gs, h. auto. }
    assert (TL : t_left s <> 0).
    { rewrite I2. destruct (unlimited left) eqn:U; [unfold unlimited in U; lia|]. cbn [negb andb] in FU. lia. }
    assert (UL : unlimited (t_left s) = unlimited left).
    { rewrite I2. destruct (unlimited left) eqn:U; [exact U|]. unfold unlimited in *. lia. }
    rewrite app_length in *. cbn [length] in *.
    destruct (print_wanted be xl e m s h pc) as (s' & g & q & h' & P1 & P2 & P3 & P4 & P5 & P6 & P7 & P8 & P9 & P10 & P11);
      try assumption; [lia|lia|].
    exists s'. split; [exact P1|]. split; [|split; assumption].
    split; [lia|]. split; [rewrite P10, UL, I2; destruct (unlimited left); cbn [negb andb] in *; lia|].
    exists (gs ++ [g]), h'. split; [eapply told_snoc; eassumption|].
    split; [rewrite P6; apply Forall2_app; [exact I4|constructor; [exact P3|constructor]]|].
    split; [exact P4|]. split; [lia|]. rewrite P6. apply Forall_app. split; [exact I7|]. constructor; [exact P11|constructor].
  Qed.

  Lemma print_many : forall e m pcs l s, left < 2 ^ 64 -> inv l s -> words m ->
    Forall (fun pc => m pc = e_mem e pc /\ m (pc + 4) = e_mem e (pc + 4)) pcs ->
    registers e -> Forall (reportable xl e) pcs ->
    (N.of_nat (length (wanted skip left (l ++ map (seen_of e) pcs))) < 2 ^ 31) ->
    exists s', print_insns be xl e m s pcs = Some s' /\ inv (l ++ map (seen_of e) pcs) s' /\ same s s'.
  Proof.
    intros e m pcs. induction pcs as [|pc pcs IH]; intros l s LB I0 W M G R B.
    - exists s. rewrite app_nil_r. repeat split; auto; apply I0.
    - inversion M as [|? ? [M1 M2] M']; subst. inversion R as [|? ? R1 R']; subst.
      cbn [map] in *.
      replace (l ++ seen_of e pc :: map (seen_of e) pcs)
        with ((l ++ [seen_of e pc]) ++ map (seen_of e) pcs) in * by (rewrite <- app_assoc; reflexivity).
      destruct (print_one e m l s pc) as (s1 & P1 & P2 & P3 & P4); try assumption.
      { pose proof (wanted_short _ skip left (l ++ [seen_of e pc]) (map (seen_of e) pcs)). lia. }
      destruct (IH (l ++ [seen_of e pc]) s1) as (s2 & Q1 & Q2 & Q3 & Q4); try assumption.
      exists s2. cbn [print_insns]. rewrite P1. split; [exact Q1|]. split; [exact Q2|].
      split; congruence.
  Qed.
End MANY.

(** ** Atomic sequences *)
Lemma sequence_unique : forall m p n n', sequence m p n -> sequence m p n' -> n = n'.
Proof.
  assert (H : forall m p n n', (n < n')%nat -> sequence m p n -> sequence m p n' -> False).
  { intros m p n n' L (_ & _ & _ & S1) (E & _ & S2 & _).
    destruct (m (p + 4 * N.of_nat n)) as [w|] eqn:M; [|apply (E n); [lia|exact M]].
    apply (S2 n w L M). apply S1. reflexivity. }
  intros m p n n' A B. destruct (Nat.lt_trichotomy n n') as [L|[L|L]]; [exfalso; eauto|exact L|exfalso; eauto].
Qed.

Lemma calls_spanned : forall p to, calls p to = spanned p to.
Proof.
  intros p to. unfold calls, spanned. destruct (N.leb_spec p to); destruct (N.ltb_spec to p); try lia; reflexivity.
Qed.
Lemma spanned_range : forall p to a, In a (spanned p to) -> p <= a <= to.
Proof.
  intros p to a. unfold spanned. destruct (N.ltb_spec to p) as [L|L]; [intros []|].
  intros H. apply in_map_iff in H. destruct H as (k & <- & K). apply in_seq in K.
  pose proof (N.mul_div_le (to - p) 4). lia.
Qed.

Lemma atomic_steps : forall be e to, words (e_mem e) -> leaves_for e to ->
  e_pc e mod 4 = 0 -> e_pc e < MAXP -> to < 2 ^ 64 - 4 ->
  exists m ret, step_over_atomic be (e_poke e) (e_run e) true (e_mem e) (e_pc e) = Stepped m to (spanned (e_pc e) to) ret
    /\ words m /\ forall a, e_pc e <= a <= to + 4 -> m a = e_mem e a.
Proof.
  intros be e to W (n & Q1 & Q2 & Q3 & Q4 & Q5 & Q6 & Q7) P4 PM TL.
  destruct (step_succeeds be (e_poke e) (e_run e) Q6 true (e_mem e) (e_pc e) n to) as (m & E); try assumption.
  { intros m1 B. destruct (Q7 m1 B) as (A1 & A2 & _). split; assumption. }
  { unfold MINUS1. lia. }
  cbn [andb] in E. rewrite calls_spanned in E. exists m. eexists. split; [exact E|].
  pose proof (step_left be (e_poke e) (e_run e) Q6 true (e_mem e) (e_pc e) W P4 PM) as L. rewrite E in L.
  cbn [left_with] in L. destruct L as (n' & m1 & L1 & L2 & L3 & L4).
  assert (n' = n) by (eapply sequence_unique; eassumption). subst n'.
  destruct (Q7 m1 L3) as (_ & A2 & A3).
  assert (W1 : words m1).
  { intros a w H. destruct (exit_dec (e_mem e) (e_pc e) n a) as [X|X].
    - rewrite (proj1 (L3 a) X) in H. injection H as <-. reflexivity.
    - rewrite (proj2 (L3 a) X) in H. eapply W, H. }
  split.
  - intros a w H. destruct (exit_dec (e_mem e) (e_pc e) n a) as [X|X].
    + destruct (A2 a X) as [A4 _]. rewrite (proj1 (L4 a) (conj X A4)) in H. eapply W, H.
    + rewrite (proj2 (L4 a)) in H by tauto. eapply Q6; [exact W1|exact H].
  - intros a R. destruct (exit_dec (e_mem e) (e_pc e) n a) as [X|X].
    + apply (proj1 (L4 a)). split; [exact X|]. apply A2, X.
    + rewrite (proj2 (L4 a)) by tauto. rewrite A3 by exact R. apply (proj2 (L3 a)), X.
Qed.
