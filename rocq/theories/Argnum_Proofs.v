(** Any text given for a number (C71); the dictionaries and names of the statistics script (C73). *)
Require Import Arith ZArith NArith String List Bool Lia ZifyBool ZifyN ZifyNat.
Require Import Verif.Args_Model Verif.Args_Spec Verif.Args_Proofs Verif.Args_Proofs2.
Require Import Verif.Script_Model Verif.Script_Spec Verif.Script_Proofs.
Require Verif.Tlbdump_Spec.
Import ListNotations.
Local Open Scope N_scope.
Local Open Scope list_scope.
Local Notation codes := Tlbdump_Spec.codes.

Definition blank (c : N) : Prop := c = 32 \/ 9 <= c <= 13.
(** White space, perhaps a sign, digits, and what does not begin with a digit *)
Definition decimal (w : word) (neg : bool) (ds : list N) : Prop :=
  exists ws sg rest, w = ws ++ sg ++ text_of ds ++ rest /\ Forall blank ws /\
    (sg = codes "-" /\ neg = true \/ (sg = codes "+" \/ sg = []) /\ neg = false) /\
    Forall (fun d => d < 10) ds /\ ds <> [] /\
    forall c r, rest = c :: r -> ~ 48 <= c <= 57.

Lemma blank_is c : is_space c = true <-> blank c.
Proof. unfold is_space, blank. lia. Qed.
Lemma skip_white ws l : Forall blank ws -> skip_space (ws ++ l) = skip_space l.
Proof. induction 1 as [|c ws B _ IH]; [reflexivity|]. cbn [app skip_space]. apply blank_is in B. now rewrite B. Qed.
Lemma skip_split l : exists ws, Forall blank ws /\ l = ws ++ skip_space l.
Proof.
  induction l as [|c l (ws & F & E)]; [exists []; split; [constructor|reflexivity]|]. cbn [skip_space]. destruct (is_space c) eqn:S.
  - exists (c :: ws). split; [constructor; [now apply blank_is|exact F]|]. cbn. now rewrite <- E.
  - exists []. split; [constructor|reflexivity].
Qed.
Lemma digits_split l : exists ds rest, Forall (fun d => d < 10) ds /\ ended rest /\ l = text_of ds ++ rest.
Proof.
  induction l as [|c l (ds & rest & F & R & E)]; [exists [], []; repeat split; constructor|]. destruct (is_digit c) eqn:D.
  - exists (c - 48 :: ds), rest. unfold is_digit in D. split; [constructor; [lia|exact F]|]. split; [exact R|].
    cbn [text_of List.map app]. fold (text_of ds). rewrite <- E. f_equal. lia.
  - exists [], (c :: l). split; [constructor|]. split; [exact D|reflexivity].
Qed.
Lemma start_decimal w neg ds : decimal w neg ds -> exists rest, sign_of (skip_space w) = (neg, text_of ds ++ rest) /\ ended rest /\ Forall (fun d => d < 10) ds.
Proof.
  intros (ws & sg & rest & -> & W & S & F & NE & R). exists rest. split; [|split; [|exact F]].
  - rewrite (skip_white _ _ W). destruct S as [[-> ->]|[[-> | ->] ->]]; [reflexivity|reflexivity|]. cbn [app]. now apply start_text.
  - destruct rest as [|c r]; [exact I|]. cbn. specialize (R c r eq_refl). unfold is_digit. lia.
Qed.
Theorem any_decimal w neg ds : decimal w neg ds ->
  strtol w = (if neg then Z.max (- 2 ^ 63) (- Z.of_N (value_of ds)) else Z.min (2 ^ 63 - 1) (Z.of_N (value_of ds)))%Z
  /\ strtoul w = if 2 ^ 64 <=? value_of ds then 2 ^ 64 - 1
                 else Z.to_N ((if neg then - Z.of_N (value_of ds) else Z.of_N (value_of ds)) mod 2 ^ 64).
Proof.
  intros D. destruct (start_decimal w neg ds D) as (rest & S & R & F). unfold strtol, strtoul. rewrite S. cbv zeta.
  rewrite (digits_text ds rest F R). fold (value_of ds). split; [reflexivity|]. generalize (value_of ds). clear. intros v.
  change (2 ^ 64) with 18446744073709551616. change (2 ^ 64)%Z with 18446744073709551616%Z.
  destruct (N.ltb_spec (18446744073709551616 - 1) v), (N.leb_spec 18446744073709551616 v); try lia.
  destruct neg.
  - destruct (N.eq_dec v 0) as [->|]; [reflexivity|]. rewrite N.mod_small by lia.
    replace (- Z.of_N v)%Z with (18446744073709551616 - Z.of_N v + (-1) * 18446744073709551616)%Z by lia.
    rewrite Z.mod_add, Z.mod_small by lia. lia.
  - rewrite Z.mod_small by lia. lia.
Qed.
Lemma sign_other c r : c <> 45 -> c <> 43 -> sign_of (c :: r) = (false, c :: r).
Proof.
  intros A B. destruct c as [|p]; [reflexivity|]. do 6 (destruct p as [p|p|]; try reflexivity; try (exfalso; now apply A); try (exfalso; now apply B)).
Qed.
Theorem no_decimal w : (forall neg ds, ~ decimal w neg ds) -> strtol w = 0%Z /\ strtoul w = 0.
Proof.
  intros N. destruct (skip_split w) as (ws & W & E).
  assert (Z : exists neg l, sign_of (skip_space w) = (neg, l) /\ digits_val 0 l = 0).
  { destruct (sign_of (skip_space w)) as [neg l] eqn:S. exists neg, l. split; [reflexivity|].
    destruct (digits_split l) as (ds & rest & F & R & L). destruct ds as [|d ds].
    { cbn in L. subst l. destruct rest as [|c r]; [reflexivity|]. cbn in R |- *. now rewrite R. }
    exfalso. apply (N neg (d :: ds)).
    assert (G : exists sg, skip_space w = sg ++ l /\ (sg = codes "-" /\ neg = true \/ (sg = codes "+" \/ sg = []) /\ neg = false)).
    { destruct (skip_space w) as [|c r]; [injection S as <- <-; exists []; auto|].
      destruct (N.eq_dec c 45) as [->|N1]; [injection S as <- <-; exists [45]; auto|].
      destruct (N.eq_dec c 43) as [->|N2]; [injection S as <- <-; exists [43]; auto|].
      rewrite (sign_other c r N1 N2) in S. injection S as <- <-. exists []. auto. }
    destruct G as (sg & G1 & G2). exists ws, sg, rest. rewrite E, G1, L. split; [reflexivity|]. split; [exact W|]. split; [exact G2|].
    split; [exact F|]. split; [discriminate|]. intros c r ->. cbn in R. unfold is_digit in R. lia. }
  destruct Z as (neg & l & S & V). unfold strtol, strtoul. rewrite S, V. destruct neg; split; reflexivity.
Qed.
Theorem skips p n : skip_of p n =
  match pl_target p with
  | Attach _ => if pl_skip p =? 0 then if Nat.leb n 1 then 0 else 1000000 else pl_skip p
  | Exec _ => pl_skip p
  end.
Proof.
  unfold skip_of. destruct (pl_target p); [|try reflexivity]; try reflexivity;
    destruct (N.eqb_spec (pl_skip p) 0) as [->|]; cbn [andb]; try reflexivity;
    destruct (Nat.ltb_spec 1 n), (Nat.leb_spec n 1); try reflexivity; lia.
Qed.

(** ** The script *)
Lemma prefix_is : forall p l, is_prefix p l = true <-> exists b, l = p ++ b.
Proof.
  induction p as [|x p IH]; intros l; [split; [exists l|]; reflexivity|]. destruct l as [|y l]; cbn [is_prefix].
  - split; [discriminate|intros (b & E); discriminate E].
  - rewrite andb_true_iff, IH, N.eqb_eq. split; [intros (-> & b & ->); exists b; reflexivity|]. intros (b & E). injection E as <- ->. split; [reflexivity|now exists b].
Qed.
Theorem contains_is p : forall l, contains p l = true <-> exists a b, l = a ++ p ++ b.
Proof.
  induction l as [|c l IH]; cbn [contains]; rewrite orb_true_iff, prefix_is.
  - split; [intros [(b & E)|E]; [exists [], b; exact E|discriminate E]|]. intros (a & b & E). left. destruct a; [now exists b|discriminate E].
  - rewrite IH. split; [intros [(b & E)|(a & b & ->)]; [exists [], b; exact E|exists (c :: a), b; reflexivity]|].
    intros (a & b & E). destruct a as [|x a]; [left; now exists b|]. injection E as <- ->. right. now exists a, b.
Qed.
Theorem names : forall x,
  (idle_c x = true <-> exists a b, pl_fn x = a ++ codes "snooze_loop" ++ b) /\
  (switch_c x = true <-> (exists a b, pl_fn x = a ++ codes "__switch_to" ++ b) /\ exists a b, pl_insn x = a ++ codes "mflr" ++ b) /\
  (is_bctrl x = true <-> pl_insn x = codes "bctrl").
Proof.
  intros x. split; [exact (contains_is snooze _)|]. split.
  - unfold switch_c. rewrite andb_true_iff. rewrite !contains_is. reflexivity.
  - exact (word_eqb_eq (pl_insn x) bctrl).
Qed.
Lemma add_keys {A} (eqb : A -> A -> bool) (EQ : forall a b, eqb a b = true <-> a = b) k : forall l,
  NoDup (List.map fst l) -> Forall (fun e => 0 < snd e) l ->
  NoDup (List.map fst (add_one eqb k l)) /\ Forall (fun e => 0 < snd e) (add_one eqb k l)
  /\ forall x, In x (List.map fst (add_one eqb k l)) <-> x = k \/ In x (List.map fst l).
Proof.
  induction l as [|[x n] l IH]; intros D P.
  - cbn. split; [repeat constructor; intros []|]. split; [repeat constructor|]. intros y. split; [intros [->|[]]|intros [->|[]]]; auto.
  - cbn [add_one]. inversion D as [|? ? D1 D2]; subst. inversion P as [|? ? P1 P2]; subst. destruct (eqb k x) eqn:E.
    + apply EQ in E. subst x. cbn. split; [constructor; assumption|]. split; [constructor; [cbn; lia|exact P2]|]. intros y. intuition congruence.
    + destruct (IH D2 P2) as (A1 & A2 & A3). cbn. split; [constructor; [|exact A1]|].
      * rewrite A3. intros [->|I]; [|contradiction]. rewrite (proj2 (EQ k k) eq_refl) in E. discriminate E.
      * split; [constructor; assumption|]. intros y. rewrite A3. intuition congruence.
Qed.
Theorem once : forall l s, s = fold_left parse_one l pst0 ->
  NoDup (List.map fst (i_exc s)) /\ Forall (fun e => 0 < snd e) (i_exc s) /\
  NoDup (List.map fst (i_calls s)) /\ Forall (fun e => 0 < snd e) (i_calls s).
Proof.
  intros l. induction l as [|x l IH] using rev_ind; intros s ->; [repeat split; constructor|].
  rewrite fold_left_app. cbn [fold_left]. destruct (IH _ eq_refl) as (A1 & A2 & A3 & A4). revert A1 A2 A3 A4.
  generalize (fold_left parse_one l pst0). intros s A1 A2 A3 A4. unfold parse_one. cbn [i_exc i_calls].
  split; [|split; [|split]].
  - destruct (is_entry (pl_addr x)); [|exact A1]. now apply (add_keys N.eqb N.eqb_eq).
  - destruct (is_entry (pl_addr x)); [|exact A2]. now apply (add_keys N.eqb N.eqb_eq).
  - destruct (i_branch s); [|exact A3]. now apply (add_keys word_eqb word_eqb_eq).
  - destruct (i_branch s); [|exact A4]. now apply (add_keys word_eqb word_eqb_eq).
Qed.
