(** The numbers in the report of the software TLB. *)
Require Import NArith PeanoNat List Bool Lia ZifyBool ZifyN ZifyNat.
Require Import Verif.Vtext_Spec Verif.Tlbdump_Model.
Require Verif.Start_Proofs Verif.Args_Spec Verif.Vtext_Proofs Verif.Regs_Model.
Import ListNotations.
Local Open Scope N_scope.

Lemma width k : forall v, v < 10 ^ N.of_nat (S k) ->
  (0 < length (Start_Proofs.dec (S k) v))%nat /\
  v < 10 ^ N.of_nat (length (Start_Proofs.dec (S k) v)) /\
  (length (Start_Proofs.dec (S k) v) = 1%nat \/ 10 ^ N.of_nat (length (Start_Proofs.dec (S k) v) - 1) <= v).
Proof.
  induction k as [|k IH]; intros v B.
  - change (10 ^ N.of_nat 1) with 10 in B. cbn [Start_Proofs.dec]. replace (v <? 10) with true by lia. cbn [app length].
    change (10 ^ N.of_nat 1) with 10. lia.
  - change (Start_Proofs.dec (S (S k)) v) with ((if v <? 10 then [] else Start_Proofs.dec (S k) (v / 10)) ++ [v mod 10]).
    destruct (v <? 10) eqn:L; [cbn [app length]; change (10 ^ N.of_nat 1) with 10; lia|].
    rewrite app_length. cbn [length].
    assert (Q : v / 10 < 10 ^ N.of_nat (S k)).
    { apply N.div_lt_upper_bound; [discriminate|]. replace (N.of_nat (S (S k))) with (N.succ (N.of_nat (S k))) in B by lia.
      rewrite N.pow_succ_r' in B. exact B. }
    specialize (IH (v / 10) Q). generalize dependent (Start_Proofs.dec (S k) (v / 10)). intros l (P & U & D).
    pose proof (N.div_mod v 10 ltac:(discriminate)) as E. pose proof (N.mod_lt v 10 ltac:(discriminate)) as M.
    replace (N.of_nat (length l + 1)) with (N.succ (N.of_nat (length l))) by lia. rewrite N.pow_succ_r'.
    split; [lia|]. split; [lia|]. right. replace (length l + 1 - 1)%nat with (length l) by lia. destruct D as [D|D].
    + rewrite D. change (10 ^ N.of_nat 1) with 10. lia.
    + replace (N.of_nat (length l)) with (N.succ (N.of_nat (length l - 1))) by lia. rewrite N.pow_succ_r'. lia.
Qed.
Lemma hex_length n v : length (Regs_Model.hex n v) = n.
Proof. induction n; cbn; congruence. Qed.
Theorem numbers :
  (forall n, n < 10 ^ 20 -> decimal (dec n) = n /\ n < 10 ^ N.of_nat (length (dec n)) /\
     (length (dec n) = 1%nat \/ 10 ^ N.of_nat (length (dec n) - 1) <= n)) /\
  (forall n, n < 10 ^ 20 -> decimal (dec02 n) = n /\ length (dec02 n) = Nat.max 2 (length (dec n))) /\
  (forall n, n < 2 ^ 64 -> hexadecimal (hex16 n) = n /\ length (hex16 n) = 16%nat) /\
  (forall n, n < 2 ^ 32 -> hexadecimal (hex8 n) = n /\ length (hex8 n) = 8%nat).
Proof.
  assert (X : forall n, length (dec n) = length (Start_Proofs.dec 20 n)).
  { intros n. unfold dec. rewrite Start_Proofs.decimal_text. unfold Args_Spec.text_of. apply map_length. }
  split; [|split; [|split]].
  - intros n B. split; [apply Vtext_Proofs.decimal_dec; exact B|]. rewrite X. apply (width 19 n B).
  - intros n B. destruct (width 19 n B) as (P & U & D). rewrite <- X in *. unfold dec02. destruct (n <? 10) eqn:L.
    + split; [exact (Vtext_Proofs.decimal_dec n B)|]. cbn [length]. destruct D as [D|D]; [lia|].
      destruct (length (dec n) - 1)%nat as [|x] eqn:E; [lia|]. replace (N.of_nat (S x)) with (N.succ (N.of_nat x)) in D by lia.
      rewrite N.pow_succ_r' in D. assert (10 ^ N.of_nat x <> 0) by (apply N.pow_nonzero; discriminate). lia.
    + split; [exact (Vtext_Proofs.decimal_dec n B)|]. destruct (length (dec n)) as [|[|x]] eqn:E; [lia| |lia].
      change (10 ^ N.of_nat 1) with 10 in U. lia.
  - intros n B. unfold hex16. rewrite Vtext_Proofs.hexadecimal_hex, hex_length. split; [apply N.mod_small; exact B|reflexivity].
  - intros n B. unfold hex8. rewrite Vtext_Proofs.hexadecimal_hex, hex_length. split; [apply N.mod_small; exact B|reflexivity].
Qed.
