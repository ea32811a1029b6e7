(** The two regular expressions of tools/qtrace_statistics.py. *)
Require Import NArith PeanoNat String List Bool Lia ZifyBool ZifyN.
Require Import Verif.Script_Model.
Require Verif.Tlbdump_Spec.
Import ListNotations.
Local Open Scope N_scope.
Local Open Scope list_scope.
Local Notation codes := Tlbdump_Spec.codes.

(** [\dA-Fa-f] and \s, of ASCII characters *)
Definition hexa (c : N) : Prop := In c (codes "0123456789ABCDEFabcdef").
Definition white (c : N) : Prop := In c [9; 10; 11; 12; 13; 28; 29; 30; 31; 32].
Definition some_of (P : N -> Prop) (l : list N) : Prop := l <> [] /\ Forall P l.
Definition starts_not (P : N -> Prop) (l : list N) : Prop := match l with c :: _ => ~ P c | [] => True end.
(** i is r up to a line feed *)
Definition line_of (r i : list N) : Prop := ~ In 10 i /\ (r = i \/ exists u, r = i ++ 10 :: u).
(** Greedy: the white space that is skipped is followed by something else *)
Definition no_sym_match (l h i : list N) : Prop :=
  exists s r, l = h ++ s ++ r /\ some_of hexa h /\ some_of white s /\ starts_not white r /\ line_of r i.
Definition sym_match (l h name i : list N) : Prop :=
  exists s s2 r, l = h ++ s ++ 60 :: name ++ 62 :: s2 ++ r /\ some_of hexa h /\ some_of white s /\
    some_of (fun c => ~ white c) name /\ some_of white s2 /\ starts_not white r /\ line_of r i.

Lemma hexa_b c : py_hex c = true <-> hexa c.
Proof.
  unfold hexa. change (codes "0123456789ABCDEFabcdef") with [48; 49; 50; 51; 52; 53; 54; 55; 56; 57; 65; 66; 67; 68; 69; 70; 97; 98; 99; 100; 101; 102].
  unfold py_hex. cbn [In]. lia.
Qed.
Lemma white_b c : py_space c = true <-> white c.
Proof. unfold white, py_space. cbn [In]. lia. Qed.
Lemma hexa_white c : hexa c -> ~ white c.
Proof. rewrite <- hexa_b, <- white_b. unfold py_hex, py_space. lia. Qed.

Section SPAN.
  Variable f : N -> bool. Variable P : N -> Prop.
  Hypothesis fP : forall c, f c = true <-> P c.
  Lemma span_spec : forall l a b, span f l = (a, b) <-> l = a ++ b /\ Forall P a /\ starts_not P b.
  Proof.
    induction l as [|c l IH]; intros a b; cbn [span].
    - split; [intros [= <- <-]; repeat split; constructor|]. intros (E & _). symmetry in E. apply app_eq_nil in E as [-> ->]. reflexivity.
    - destruct (f c) eqn:F.
      + destruct (span f l) as [a0 b0] eqn:Q. split.
        * intros [= <- <-]. destruct (proj1 (IH a0 b0) eq_refl) as (-> & A & B). split; [reflexivity|]. split; [constructor; [apply fP; exact F|exact A]|exact B].
        * intros (E & A & B). destruct a as [|x a].
          -- cbn in E. subst b. destruct B. apply fP. exact F.
          -- cbn in E. injection E as <- E. inversion A; subst. assert (X : (a0, b0) = (a, b)) by (apply IH; auto). injection X as <- <-. reflexivity.
      + split.
        * intros [= <- <-]. split; [reflexivity|]. split; [constructor|]. cbn. rewrite <- fP, F. discriminate.
        * intros (E & A & B). destruct a as [|x a]; [cbn in E; subst b; reflexivity|]. cbn in E. injection E as <- E. inversion A as [|? ? A1 A2]; subst.
          apply fP in A1. congruence.
  Qed.
End SPAN.
Lemma line_spec r i : fst (span (fun c => negb (c =? 10)) r) = i <-> line_of r i.
Proof.
  assert (fP : forall c, negb (c =? 10) = true <-> c <> 10) by (intros c; lia).
  destruct (span (fun c => negb (c =? 10)) r) as [a b] eqn:Q. cbn [fst]. pose proof (proj1 (span_spec _ _ fP r a b) Q) as (E & A & B). unfold line_of. split.
  - intros <-. split; [intros I; rewrite Forall_forall in A; exact (A _ I eq_refl)|]. destruct b as [|c b]; [left; rewrite E; apply app_nil_r|].
    right. exists b. cbn in B. assert (c = 10) by lia. subst c. exact E.
  - intros (NI & [D|(u & D)]).
    + assert (X : (a, b) = (i, [])); [|congruence]. rewrite <- Q. apply (span_spec _ _ fP). split; [rewrite app_nil_r; exact D|]. split; [|exact I].
      apply Forall_forall. intros x X ->. contradiction.
    + assert (X : (a, b) = (i, 10 :: u)); [|congruence]. rewrite <- Q. apply (span_spec _ _ fP). split; [exact D|]. split; [|cbn; lia].
      apply Forall_forall. intros x X ->. contradiction.
Qed.
Lemma starts_some (P Q : N -> Prop) s r : (forall c, P c -> ~ Q c) -> some_of P s -> starts_not Q (s ++ r).
Proof. intros H (NE & F). destruct s as [|c s]; [contradiction|]. inversion F; subst. cbn. apply H. assumption. Qed.
Lemma white_hexa c : white c -> ~ hexa c. Proof. intros W H. exact (hexa_white c H W). Qed.

Theorem no_sym_iff : forall l h i, r_no_sym l = Some (h, i) <-> no_sym_match l h i.
Proof.
  intros l h i. unfold r_no_sym, no_sym_match. destruct (span py_hex l) as [h0 l1] eqn:Q1. destruct (span py_space l1) as [s0 l2] eqn:Q2.
  pose proof (proj1 (span_spec _ _ hexa_b _ _ _) Q1) as (E1 & A1 & B1). pose proof (proj1 (span_spec _ _ white_b _ _ _) Q2) as (E2 & A2 & B2). split.
  - intros H. exists s0, l2. destruct h0 as [|x h0]; [discriminate|]. destruct s0 as [|y s0]; [discriminate|].
    cbv iota in H. injection H as <- L.
    split; [rewrite <- E2; exact E1|]. split; [split; [discriminate|exact A1]|]. split; [split; [discriminate|exact A2]|]. split; [exact B2|]. apply line_spec. exact L.
  - intros (s & r & E & (H1 & H2) & (S1 & S2) & B & L).
    assert (X : (h0, l1) = (h, s ++ r)).
    { rewrite <- Q1. apply (span_spec _ _ hexa_b). split; [exact E|]. split; [exact H2|]. apply (starts_some white); [exact white_hexa|split; assumption]. }
    injection X as -> ->.
    assert (X : (s0, l2) = (s, r)) by (rewrite <- Q2; apply (span_spec _ _ white_b); auto). injection X as -> ->.
    destruct h as [|x h]; [contradiction|]. destruct s as [|y s]; [contradiction|]. apply line_spec in L. cbv iota. rewrite L. reflexivity.
Qed.
Lemma last_cases (l : list N) : l = [] \/ exists a c, l = a ++ [c].
Proof. destruct l as [|x l]; [now left|right]. destruct (exists_last (l := x :: l) ltac:(discriminate)) as (a & c & E). exists a, c. exact E. Qed.
Theorem sym_iff : forall l h name i, r_sym l = Some (h, name, i) <-> sym_match l h name i.
Proof.
  intros l h name i. unfold r_sym, sym_match. destruct (span py_hex l) as [h0 l1] eqn:Q1. destruct (span py_space l1) as [s0 l2] eqn:Q2.
  pose proof (proj1 (span_spec _ _ hexa_b _ _ _) Q1) as (E1 & A1 & B1). pose proof (proj1 (span_spec _ _ white_b _ _ _) Q2) as (E2 & A2 & B2).
  assert (nwP : forall c, negb (py_space c) = true <-> ~ white c) by (intros c; rewrite <- white_b; destruct (py_space c); cbn; intuition congruence).
  split.
  - intros H. destruct h0 as [|x h0]; [discriminate|]. destruct s0 as [|y s0]; [discriminate|]. destruct l2 as [|c l3]; [discriminate|].
    destruct (N.eq_dec c 60) as [->|NC].
    2: { exfalso. assert (X : forall (A : Type) (a b : A), match c with 60 => a | _ => b end = b).
         { intros A a b. destruct c as [|p]; [reflexivity|]. repeat (destruct p as [p|p|]; try reflexivity). exfalso. apply NC. reflexivity. }
         rewrite X in H. discriminate H. }
    destruct (span (fun c => negb (py_space c)) l3) as [run l4] eqn:Q3. destruct (span py_space l4) as [s2 l5] eqn:Q4.
    pose proof (proj1 (span_spec _ _ nwP _ _ _) Q3) as (E3 & A3 & B3). pose proof (proj1 (span_spec _ _ white_b _ _ _) Q4) as (E4 & A4 & B4).
    destruct s2 as [|z s2]; [discriminate|]. destruct ((last run 0 =? 62) && Nat.ltb 1 (length run)) eqn:C; [|discriminate].
    apply andb_true_iff in C as [C1 C2]. apply Nat.ltb_lt in C2.
    injection H as <- <- L.
    destruct (last_cases run) as [->|(a & e & ->)]; [cbn in C2; lia|]. rewrite last_last in C1. rewrite removelast_last. rewrite app_length in C2. cbn in C2.
    assert (e = 62) by lia. subst e. apply Forall_app in A3 as [A3 _].
    exists (y :: s0), (z :: s2), l5. split.
    { rewrite E1, E2, E3, E4, <- app_assoc. reflexivity. }
    split; [split; [discriminate|exact A1]|]. split; [split; [discriminate|exact A2]|]. split; [split; [destruct a; [cbn in C2; lia|discriminate]|exact A3]|].
    split; [split; [discriminate|exact A4]|]. split; [exact B4|]. apply line_spec. exact L.
  - intros (s & s2 & r & E & (H1 & H2) & (S1 & S2) & (N1 & N2) & (S3 & S4) & B & L).
    assert (X : (h0, l1) = (h, s ++ 60 :: name ++ 62 :: s2 ++ r)).
    { rewrite <- Q1. apply (span_spec _ _ hexa_b). split; [exact E|]. split; [exact H2|]. apply (starts_some white); [exact white_hexa|split; assumption]. }
    injection X as -> ->.
    assert (X : (s0, l2) = (s, 60 :: name ++ 62 :: s2 ++ r)).
    { rewrite <- Q2. apply (span_spec _ _ white_b). split; [reflexivity|]. split; [exact S2|]. cbn. unfold white. cbn. lia. }
    injection X as -> ->. destruct h as [|x h]; [contradiction|]. destruct s as [|y s]; [contradiction|]. cbv iota.
    assert (Q3 : span (fun c => negb (py_space c)) (name ++ 62 :: s2 ++ r) = (name ++ [62], s2 ++ r)).
    { apply (span_spec _ _ nwP). split; [rewrite <- app_assoc; reflexivity|]. split.
      - apply Forall_app. split; [exact N2|]. constructor; [unfold white; cbn; lia|constructor].
      - apply (starts_some white); [intros c W K; exact (K W)|split; assumption]. }
    rewrite Q3. assert (Q4 : span py_space (s2 ++ r) = (s2, r)) by (apply (span_spec _ _ white_b); auto).
    rewrite Q4. destruct s2 as [|z s2]; [contradiction|]. rewrite last_last, removelast_last, app_length. change (62 =? 62) with true.
    destruct name as [|n0 name]; [contradiction|]. replace (Nat.ltb 1 (length (n0 :: name) + length [62])) with true by (symmetry; apply Nat.ltb_lt; cbn; lia).
    cbn [andb]. apply line_spec in L. cbv iota. rewrite L. reflexivity.
Qed.
(** The script stops exactly at lines without an address and white space. *)
Theorem rejects : forall l, parse_line l = None <-> ~ exists h s r, l = h ++ s ++ r /\ some_of hexa h /\ some_of white s.
Proof.
  intros l. split.
  - intros H (h & s & r & E & A & B). unfold parse_line in H. destruct (r_sym l) as [[[? ?] ?]|]; [discriminate|].
    destruct (r_no_sym l) as [[h1 i1]|] eqn:Q; [discriminate|]. clear H.
    destruct (span py_space (s ++ r)) as [s' r'] eqn:Q2. pose proof (proj1 (span_spec _ _ white_b _ _ _) Q2) as (E2 & A2 & B2).
    assert (X : r_no_sym l = Some (h, fst (span (fun c => negb (c =? 10)) r'))); [|congruence].
    apply no_sym_iff. exists s', r'. split; [rewrite <- E2; exact E|]. split; [exact A|]. split; [|split; [exact B2|apply line_spec; reflexivity]].
    split; [|exact A2]. intros ->. cbn in E2. subst r'. destruct B as [B1 B3]. destruct s as [|c s]; [contradiction|]. inversion B3; subst. cbn in B2. contradiction.
  - intros H. unfold parse_line. destruct (r_sym l) as [[[h n] i]|] eqn:Q.
    + exfalso. apply H. apply sym_iff in Q as (s & s2 & r & E & A & B & _). exists h, s, (60 :: n ++ 62 :: s2 ++ r). auto.
    + destruct (r_no_sym l) as [[h i]|] eqn:Q2; [|reflexivity]. exfalso. apply H. apply no_sym_iff in Q2 as (s & r & E & A & B & _). exists h, s, r. auto.
Qed.
(** int(…, 16) reads capital and small letters. *)
Theorem digits : forall c, hexa c ->
  nth_error (codes "0123456789abcdef") (N.to_nat (hex_digit c)) = Some c \/ nth_error (codes "0123456789ABCDEF") (N.to_nat (hex_digit c)) = Some c.
Proof. intros c H. vm_compute in H. repeat destruct H as [<-|H]; try contradiction; vm_compute; auto. Qed.
