(** How a copy can end, and the numbers in the register log. *)
Require Import NArith PeanoNat ZArith List Bool Lia ZifyBool ZifyN ZifyNat.
Require Import Verif.Word Verif.Codec_Types Verif.Writer_Model Verif.Writer_Proofs Verif.Reader_Model Verif.Copy_Model Verif.Copy_Proofs3.
Require Verif.Regs_Model Verif.Regs_Spec Verif.Regs_Proofs2 Verif.Vtext_Spec Verif.Vtext_Proofs.
Import ListNotations.
Local Open Scope N_scope.

Definition all_of (l : list rrec) : list (qrec * bool) := map (fun r => (r, true)) (map o_q l).
Lemma write_no_fail st r st' : qtwriter_write_record st true r <> WFail st'.
Proof.
  unfold qtwriter_write_record. cbv zeta. rewrite andb_false_r.
  destruct (_ <? _); destruct (w_header st); unfold store; 
  repeat match goal with |- context [match ?x with _ => _ end] => destruct x end; discriminate.
Qed.
Lemma loop_ends slack : forall fuel s b st l e, read_loop fuel slack s b = (l, e) ->
  match copy_loop fuel slack s b st with
  | CDone out => e = EndFalse /\ exists st', write_all st (all_of l) = inr st' /\ qtwriter_close st' true = inr out
  | CRefused => False
  | CFailed => False
  | CAbort w => (exists n, write_all st (all_of (firstn n l)) = inl w) \/
      (e = EndFalse /\ exists st', write_all st (all_of l) = inr st' /\ qtwriter_close st' true = inl w)
  | CFault f => e = EndFault f /\ exists st', write_all st (all_of l) = inr st'
  end.
Proof.
  induction fuel as [|fuel IH]; intros s b st l e E; cbn [read_loop copy_loop] in *.
  - injection E as <- <-. split; [reflexivity|]. exists st. reflexivity.
  - destruct (qtreader_next_record slack s b) as [[[r s'] b']| |f].
    + destruct (read_loop fuel slack s' b') as [l1 e1] eqn:Q. injection E as <- <-.
      destruct (qtwriter_write_record st true (o_q r)) as [st'|st'|w] eqn:W.
      * specialize (IH s' b' st' l1 e1 Q). destruct (copy_loop fuel slack s' b' st') as [out| | |w|f]; try exact IH.
        -- cbn [all_of map write_all]. rewrite W. exact IH.
        -- destruct IH as [(n & X)|X].
           ++ left. exists (S n). cbn [firstn all_of map write_all]. rewrite W. exact X.
           ++ right. cbn [all_of map write_all]. rewrite W. exact X.
        -- cbn [all_of map write_all]. rewrite W. exact IH.
      * exact (write_no_fail _ _ _ W).
      * left. exists 1%nat. cbn [firstn all_of map write_all]. rewrite W. reflexivity.
    + injection E as <- <-. destruct (qtwriter_close st true) as [w|out] eqn:C.
      * right. split; [reflexivity|]. exists st. split; [reflexivity|exact C].
      * split; [reflexivity|]. exists st. split; [reflexivity|exact C].
    + injection E as <- <-. split; [reflexivity|]. exists st. reflexivity.
Qed.
Theorem ends : forall slack b l e, read_trace false false slack b = (l, e) ->
  match copy slack b with
  | CDone out => (exists s b', qtreader_initialize b = ROk (s, b')) /\ e = EndFalse /\ write_trace 0 (map o_q l) = inr out
  | CRefused => qtreader_initialize b = RErr
  | CFailed => False
  | CAbort w => exists n, write_trace 0 (map o_q (firstn n l)) = inl w
  | CFault f => e = EndFault f
  end.
Proof.
  intros slack b l e E. unfold read_trace in E. unfold copy. destruct (qtreader_initialize b) as [[s b']| |f] eqn:I; [|reflexivity|].
  - rewrite (initial_info _ _ _ I) in E. pose proof (loop_ends slack _ _ _ (qtwriter_open 0) _ _ E) as H. unfold write_trace.
    fold (all_of l). 
    destruct (copy_loop _ _ _ _ _) as [out| | |w|f]; try contradiction.
    + destruct H as (-> & st & A & C). split; [eauto|]. split; [reflexivity|]. rewrite A. exact C.
    + destruct H as [(n & A)|(-> & st & A & C)].
      * exists n. fold (all_of (firstn n l)). rewrite A. reflexivity.
      * exists (length l). rewrite firstn_all. fold (all_of l). rewrite A. exact C.
    + exact (proj1 H).
  - injection E as <- <-. reflexivity.
Qed.

(** ** Numbers of the register log *)
Import Verif.Regs_Model Verif.Regs_Spec.
Notation decimal := Verif.Vtext_Spec.decimal.
Notation hexadecimal := Verif.Vtext_Spec.hexadecimal.
Lemma dec2_ok i : (i < 100)%nat -> decimal (dec2 i) = N.of_nat i.
Proof.
  intros B. unfold decimal, dec2. cbn [fold_left]. pose proof (Nat.div_mod i 10 ltac:(discriminate)). lia.
Qed.
Lemma hexadecimal_app a b : hexadecimal (a ++ b) = hexadecimal a * 16 ^ N.of_nat (length b) + hexadecimal b.
Proof.
  unfold hexadecimal. rewrite fold_left_app. generalize (fold_left (fun a c => 16 * a + Vtext_Spec.digit c) a 0) as x.
  induction b as [|c b IH] using rev_ind; intros x; [cbn; lia|].
  rewrite !fold_left_app. cbn [fold_left]. rewrite IH, app_length. cbn [length].
  replace (N.of_nat (length b + 1)) with (N.succ (N.of_nat (length b))) by lia. rewrite N.pow_succ_r'. lia.
Qed.
Theorem log_numbers :
  (forall i, (i < 100)%nat -> exists d, length d = 2%nat /\ decimal d = N.of_nat i /\
     name (GPR i) = [71; 80; 82] ++ d /\ name (VR i) = [86; 82] ++ d ++ [32] /\ name (VSR i) = [86; 83; 82] ++ d) /\
  (forall x, proper x -> exists d, render x = [9] ++ name (l_reg x) ++ [32; 48; 120] ++ d ++ [10] /\
     hexadecimal d = l_val x /\ length d = match l_width x with W32 => 8 | W64 => 16 | W128 => 32 end%nat).
Proof.
  split.
  - intros i B. exists (dec2 i). split; [reflexivity|]. split; [now apply dec2_ok|]. repeat split.
  - intros x (_ & _ & V). unfold render. eexists. split; [reflexivity|]. destruct (l_width x).
    + rewrite Vtext_Proofs.hexadecimal_hex, Regs_Proofs2.hex_length. split; [|reflexivity]. apply N.mod_small. exact V.
    + rewrite Vtext_Proofs.hexadecimal_hex, Regs_Proofs2.hex_length. split; [|reflexivity]. apply N.mod_small. exact V.
    + rewrite hexadecimal_app, !Vtext_Proofs.hexadecimal_hex, app_length, !Regs_Proofs2.hex_length. split; [|reflexivity].
      change 0xffffffffffffffff with (N.ones 64). rewrite N.land_ones, N.shiftr_div_pow2.
      change (16 ^ N.of_nat 16) with (2 ^ 64). rewrite (N.mod_small (l_val x / 2 ^ 64)).
      * rewrite N.mod_mod by discriminate. pose proof (N.div_mod (l_val x) (2 ^ 64) ltac:(discriminate)). lia.
      * apply N.div_lt_upper_bound; [discriminate|]. exact V.
Qed.
