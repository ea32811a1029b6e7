(** The notes in the report of a test program. *)
Require Import NArith ZArith PeanoNat String List Bool Lia ZifyBool ZifyN ZifyNat.
Require Import Verif.Tap_Model Verif.Tap_Spec Verif.Tap_Proofs Verif.Tapnotes_Spec.
Require Verif.Vtext_Spec Verif.Vtext_Model Verif.Vtext_Proofs Verif.Tlbdump_Spec Verif.Tlbdump_Model.
Import ListNotations.
Local Open Scope N_scope.
Local Open Scope list_scope.
Local Notation codes := Tlbdump_Spec.codes.
Local Notation chars := Vtext_Model.chars.
Local Notation dec := Tlbdump_Model.dec.
Local Notation split := Vtext_Spec.split.

Lemma note_read t u : one_line t -> notes_of (note t ++ u) = t :: notes_of u.
Proof.
  intros H. unfold note, notes_of. replace ((chars "# " ++ t ++ [10]) ++ u) with ((35 :: 32 :: t) ++ 10 :: u) by (cbn; rewrite <- app_assoc; reflexivity).
  rewrite lines_cons; [reflexivity|]. intros [I|[I|I]]; [discriminate|discriminate|contradiction].
Qed.
Lemma note_read1 t : one_line t -> notes_of (note t) = [t].
Proof. intros H. rewrite <- (app_nil_r (note t)), note_read by exact H. reflexivity. Qed.
Lemma confusing_eq t : forallb digit_or_space t = confusing t.
Proof.
  unfold confusing. induction t as [|c t IH]; [reflexivity|]. cbn [forallb]. rewrite IH. f_equal. unfold digit_or_space.
  change (codes "0123456789 " ++ [9; 10; 11; 12; 13]) with [48; 49; 50; 51; 52; 53; 54; 55; 56; 57; 32; 9; 10; 11; 12; 13]. cbn [existsb]. lia.
Qed.
Lemma name_notes_read name u : match name with Some o => one_line' o | None => True end ->
  notes_of (name_notes name ++ u) =
  match name with
      | Some (Some t) =>
          if confusing t then
            [codes "    You named your test '" ++ t ++ codes "'.  You shouldn't use numbers for your test names."; codes "    Very confusing."]
          else []
      | _ => []
      end ++ notes_of u.
Proof.
  destruct name as [[t|]|]; intros H; [|reflexivity|reflexivity]. cbn [name_notes]. rewrite confusing_eq. destruct (confusing t); [|reflexivity].
  rewrite <- app_assoc, note_read, note_read; [reflexivity|lit|]. apply ol_app; [lit|]. apply ol_app; [exact H|lit].
Qed.
Lemma gen_notes s todo freed ok func file line name u :
  state_of s todo freed -> clean (TOk ok func file line name) -> one_line' todo -> t_count s + 1 < 2 ^ 31 -> line < 2 ^ 31 ->
  notes_of (gen_text s ok func file line name ++ u)
  = match name with
      | Some (Some t) =>
          if confusing t then
            [codes "    You named your test '" ++ t ++ codes "'.  You shouldn't use numbers for your test names."; codes "    Very confusing."]
          else []
      | _ => []
      end
      ++ (if ok then []
          else [codes (if match todo with Some _ => true | None => false end then "    Failed (TODO) test (" else "    Failed test (") ++ file ++ codes ":" ++ func ++ codes "() at line "
                ++ dec line ++ codes ")"]) ++ notes_of u.
Proof.
  intros (S1 & _ & S2) (C1 & C2 & C3) T B BL. unfold gen_text. rewrite u32_small, (d32_small (t_count s + 1)), (d32_small line) by assumption.
  assert (TT : (if t_todo s then todo_text s else []) = tail_text todo) by (rewrite S1; destruct todo; [exact S2|reflexivity]).
  rewrite TT. rewrite <- !app_assoc. rewrite (name_notes_read name _ C3). f_equal.
  set (fl := if ok then [] else note _).
  replace ((if ok then [] else chars "not ") ++ chars "ok " ++ dec (t_count s + 1) ++ name_text name ++ tail_text todo ++ [10] ++ fl ++ u)
    with (((if ok then [] else chars "not ") ++ chars "ok " ++ dec (t_count s + 1) ++ name_text name ++ tail_text todo) ++ 10 :: (fl ++ u))
    by (rewrite <- !app_assoc; reflexivity).
  unfold notes_of. rewrite lines_cons.
  - match goal with |- match line_note ?x with _ => _ end ++ _ = _ => replace (line_note x) with (@None (list N)) by (destruct ok; reflexivity) end.
    cbn [app]. subst fl. destruct ok; [reflexivity|]. rewrite S1. fold (notes_of u).
    match goal with |- some line_note (split 10 (note ?t ++ u)) = _ => change (notes_of (note t ++ u) = [codes (if match todo with Some _ => true | None => false end then "    Failed (TODO) test (" else "    Failed test (") ++ file ++ codes ":" ++ func ++ codes "() at line "
                ++ dec line ++ codes ")"] ++ notes_of u) end.
    rewrite note_read; [destruct todo; reflexivity|].
    apply ol_app; [lit|]. apply ol_app; [destruct todo; lit|]. apply ol_app; [lit|]. apply ol_app; [exact C2|].
    apply ol_app; [lit|]. apply ol_app; [exact C1|]. apply ol_app; [lit|]. apply ol_app; [apply ol_dec|lit].
  - apply ol_app; [destruct ok; lit|]. apply ol_app; [lit|]. apply ol_app; [apply ol_dec|]. apply ol_app; [apply ol_name; exact C3|].
    destruct todo as [m|]; [|lit]. apply ol_app; [lit|exact T].
Qed.
Lemma skip_notes m : one_line m -> forall n c u, notes_of (fst (skip_loop n c m) ++ u) = notes_of u.
Proof.
  intros M. induction n as [|n IH]; intros c u; [reflexivity|]. cbn [skip_loop]. specialize (IH (u32 (c + 1)) u).
  destruct (skip_loop n (u32 (c + 1)) m) as [t c']. cbn [fst] in *. rewrite <- IH.
  replace ((chars "ok " ++ d32 (u32 (c + 1)) ++ chars " # skip " ++ m ++ [10] ++ t) ++ u)
    with ((chars "ok " ++ d32 (u32 (c + 1)) ++ chars " # skip " ++ m) ++ 10 :: (t ++ u)) by (rewrite <- !app_assoc; reflexivity).
  unfold notes_of. rewrite lines_cons; [reflexivity|]. apply ol_app; [lit|]. apply ol_app; [apply ol_d32|]. apply ol_app; [lit|exact M].
Qed.

Definition marked_todo (todo : option (list N)) : bool := match todo with Some _ => true | None => false end.
Lemma body_notes : forall cs s todo freed, state_of s todo freed -> one_line' todo -> proper freed cs -> Forall clean cs -> Forall short_line cs ->
  t_failures s <= t_count s -> t_count s + N.of_nat (length (expected todo (t_count s) cs)) < 2 ^ 31 ->
  exists out s', tap_run s cs = Some (out ++ cleanup s', exit_status s') /\ same_plan s s' /\
    t_count s' = t_count s + N.of_nat (length (expected todo (t_count s) cs)) /\
    t_failures s' = t_failures s + N.of_nat (bads (expected todo (t_count s) cs)) /\
    (forall u, notes_of (out ++ u) = expected_notes (marked_todo todo) cs ++ notes_of u).
Proof.
  induction cs as [|c cs IH]; intros s todo freed S T P C SL0 FC B.
  - exists [], s. cbn. repeat split; try reflexivity; lia.
  - inversion C as [|? ? C1 C2]; subst. inversion SL0 as [|? ? L1 L2]; subst. cbn [tap_run]. destruct c as [k| |r|ok func file line name|t|k m|m|]; cbn [proper] in P; try contradiction; cbn [tap_call].
    + cbn [expected length expected_notes] in *. set (s1 := gen_state s ok).
      assert (B1 : t_count s + 1 < 2 ^ 31) by lia.
      assert (E1 : t_count s1 = t_count s + 1) by (apply u32_small; exact B1).
      assert (F1 : t_failures s1 = t_failures s + N.of_nat (if badb (mk_result ok (t_count s + 1) (option_map (text "libtap malloc issue") name) (option_map Todo todo)) then 1 else 0)).
      { subst s1. cbn [gen_state t_failures]. destruct S as (S1 & _). rewrite S1. unfold badb. cbn [passed marked]. destruct ok; cbn; [lia|]. destruct todo; cbn; [lia|].
        apply u32_small. lia. }
      destruct (IH s1 todo freed) as (out & s' & R & SP & X1 & X2 & X3).
      { exact S. } { exact T. } { exact P. } { exact C2. } { exact L2. }
      { rewrite F1, E1. destruct (badb _); lia. }
      { rewrite E1. lia. }
      rewrite R. exists (gen_text s ok func file line name ++ out), s'. rewrite E1 in *. rewrite <- app_assoc. split; [reflexivity|]. split; [exact SP|].
      split; [lia|]. split.
      * rewrite X2, F1. unfold bads. cbn [filter]. destruct (badb _); cbn [length]; lia.
      * intros u; rewrite <- app_assoc. rewrite (gen_notes s todo freed ok func file line name _ S C1 T B1 L1), X3. rewrite <- !app_assoc. reflexivity.
    + cbn [expected expected_notes] in *. destruct (IH s todo freed S T P C2 L2 FC B) as (out & s' & R & SP & X1 & X2 & X3).
      rewrite R. exists (note t ++ out), s'. rewrite <- app_assoc. repeat (split; [first [reflexivity|assumption]|]).
      intros u; rewrite <- app_assoc. rewrite (note_read t _ C1), X3. reflexivity.
    + cbn [expected expected_notes] in *. rewrite app_length, map_length, seq_length in *.
      set (mt := match m with Some t => t | None => _ end).
      assert (Q : text "libtap():malloc() failed" m = mt) by (subst mt; destruct m; reflexivity).
      assert (OM : one_line mt) by (subst mt; destruct m as [t|]; [exact C1|lit]).
      assert (SK := skip_read mt OM k (t_count s)). assert (SN := skip_notes mt OM k (t_count s)).
      destruct (skip_loop k (t_count s) mt) as [t c'] eqn:SL. cbn [fst snd] in SK, SN.
      assert (E1 : c' = t_count s + N.of_nat k) by (apply (SK []); lia).
      set (s1 := mk_tap _ _ _ _ _ _ _ _ _ _).
      destruct (IH s1 todo freed) as (out & s' & R & SP & X1 & X2 & X3).
      { exact S. } { exact T. } { exact P. } { exact C2. } { exact L2. }
      { subst s1. cbn. lia. }
      { subst s1. cbn. rewrite E1. lia. }
      rewrite R. exists (t ++ out), s'. subst s1. cbn [t_count t_failures] in *. rewrite E1 in *. rewrite <- app_assoc. split; [reflexivity|]. split; [exact SP|].
      split; [lia|]. split.
      * rewrite X2, bads_app, bads_skips by reflexivity. lia.
      * intros u; rewrite <- app_assoc, SN. apply X3.
    + cbn [expected expected_notes] in *. set (s1 := mk_tap _ _ _ _ _ _ _ _ _ _).
      destruct (IH s1 (Some (text "libtap malloc issue" m)) false) as (out & s' & R & SP & X1 & X2 & X3).
      { subst s1. split; [reflexivity|]. split; [destruct m; discriminate|]. destruct m; reflexivity. }
      { destruct m as [t|]; [exact C1|lit]. } { exact P. } { exact C2. } { exact L2. } { exact FC. } { exact B. }
      rewrite R. exists out, s'. split; [reflexivity|]. split; [exact SP|]. split; [exact X1|]. split; [exact X2|]. exact X3.
    + cbn [expected expected_notes] in *. destruct P as (-> & P). destruct S as (S1 & S2 & S3).
      assert (G : forall ms, exists out s', match tap_run (mk_tap (t_init s) (t_no_plan s) (t_skip_all s) (t_have_plan s) (t_count s) (t_expected s) (t_failures s) false ms (t_died s)) cs with
         | Some (t, r) => Some ([] ++ t, r) | None => None end = Some (out ++ cleanup s', exit_status s') /\ same_plan s s' /\
         t_count s' = t_count s + N.of_nat (length (expected None (t_count s) cs)) /\
         t_failures s' = t_failures s + N.of_nat (bads (expected None (t_count s) cs)) /\
         (forall u, notes_of (out ++ u) = expected_notes false cs ++ notes_of u)).
      { intros ms. set (s1 := mk_tap _ _ _ _ _ _ _ _ _ _).
        destruct (IH s1 None true) as (out & s' & R & SP & X1 & X2 & X3).
        { split; [reflexivity|]. split; [reflexivity|exact I]. } { exact I. } { exact P. } { exact C2. } { exact L2. } { exact FC. } { exact B. }
        rewrite R. exists out, s'. split; [reflexivity|]. split; [exact SP|]. split; [exact X1|]. split; [exact X2|]. exact X3. }
      destruct (t_msg s) eqn:M; [apply G|apply G|]. specialize (S2 eq_refl). discriminate S2.
Qed.
Lemma some_pair {A B} (a c : A) (b d : B) : Some (a, b) = Some (c, d) -> c = a. Proof. congruence. Qed.
Lemma bad_same l : N.of_nat (bads l) = count_bad l. Proof. reflexivity. Qed.
Ltac one := repeat (apply ol_app; [first [apply ol_dec|lit]|]); lit.
Theorem planned_notes : forall n cs out r, 0 < n < 2 ^ 31 -> proper false cs -> Forall clean cs -> Forall short_line cs ->
  N.of_nat (length (expected None 0 cs)) < 2 ^ 31 -> tap_run tap0 (TPlan n :: cs) = Some (out, r) ->
  notes_of out = expected_notes false cs ++ summary (Some n) (N.of_nat (length (expected None 0 cs))) (count_bad (expected None 0 cs)).
Proof.
  intros n cs out0 r0 [B1 B2] P C SL L. cbn [tap_run tap_call tap0 t_have_plan t_init]. replace (n =? 0) with false by lia.
  set (s1 := mk_tap _ _ _ _ _ _ _ _ _ _).
  destruct (body_notes cs s1 None false) as (out & s' & R & SP & X1 & X2 & X3).
  { split; [reflexivity|]. split; [discriminate|exact I]. } { exact I. } { exact P. } { exact C. } { exact SL. } { apply N.le_refl. } { exact L. }
  rewrite R. change (t_count s1) with 0 in *. change (t_failures s1) with 0 in *. rewrite N.add_0_l in *.
  destruct SP as (Q1 & Q2 & Q3 & Q4 & Q5 & Q6). subst s1. cbn in Q1, Q2, Q3, Q4, Q5, Q6.
  intros E0. apply some_pair in E0. rewrite E0. clear E0. rewrite <- !app_assoc. rewrite d32_small by exact B2.
  assert (PL : forall u, notes_of (chars "1.." ++ dec n ++ [10] ++ u) = notes_of u).
  { intros u. replace (chars "1.." ++ dec n ++ [10] ++ u) with ((chars "1.." ++ dec n) ++ 10 :: u) by (rewrite <- app_assoc; reflexivity).
    unfold notes_of. rewrite lines_cons; [reflexivity|]. apply ol_app; [lit|apply ol_dec]. }
  rewrite PL, X3. change (marked_todo None) with false. f_equal.
  pose proof (bads_le (expected None 0 cs)) as BL. rewrite <- bad_same.
  assert (BN : N.of_nat (bads (expected None 0 cs)) < 2 ^ 31) by lia.
  unfold cleanup. rewrite Q1, Q2, Q3, Q4, Q5, Q6, X1, X2. cbn [negb andb orb app]. unfold summary.
  destruct (n <? N.of_nat (length (expected None 0 cs))) eqn:E1.
  - rewrite !d32_small by lia. rewrite note_read1 by one. reflexivity.
  - destruct (N.of_nat (length (expected None 0 cs)) <? n) eqn:E2.
    + rewrite !d32_small by lia. rewrite note_read by one. f_equal. destruct (N.of_nat (bads (expected None 0 cs)) =? 0); [reflexivity|]. rewrite note_read1 by one. reflexivity.
    + destruct (N.of_nat (bads (expected None 0 cs)) =? 0); [reflexivity|]. rewrite !d32_small by lia. rewrite note_read1 by one. reflexivity.
Qed.
Theorem unplanned_notes : forall cs out r, proper false cs -> Forall clean cs -> Forall short_line cs ->
  N.of_nat (length (expected None 0 cs)) < 2 ^ 31 -> tap_run tap0 (TNoPlan :: cs) = Some (out, r) ->
  notes_of out = expected_notes false cs ++ summary None (N.of_nat (length (expected None 0 cs))) (count_bad (expected None 0 cs)).
Proof.
  intros cs out0 r0 P C SL L. cbn [tap_run tap_call tap0 t_have_plan t_init].
  set (s1 := mk_tap _ _ _ _ _ _ _ _ _ _).
  destruct (body_notes cs s1 None false) as (out & s' & R & SP & X1 & X2 & X3).
  { split; [reflexivity|]. split; [discriminate|exact I]. } { exact I. } { exact P. } { exact C. } { exact SL. } { apply N.le_refl. } { exact L. }
  rewrite R. change (t_count s1) with 0 in *. change (t_failures s1) with 0 in *. rewrite N.add_0_l in *.
  destruct SP as (Q1 & Q2 & Q3 & Q4 & Q5 & Q6). subst s1. cbn in Q1, Q2, Q3, Q4, Q5, Q6.
  intros E0. apply some_pair in E0. rewrite E0. clear E0. cbn [app]. rewrite X3. change (marked_todo None) with false. f_equal.
  pose proof (bads_le (expected None 0 cs)) as BL. rewrite <- bad_same.
  assert (BN : N.of_nat (bads (expected None 0 cs)) < 2 ^ 31) by lia.
  unfold cleanup. rewrite Q1, Q2, Q3, Q4, Q5, Q6, X1, X2. cbn [negb andb orb app]. replace (N.of_nat (length (expected None 0 cs)) <? 0) with false by lia.
  rewrite <- !app_assoc, !d32_small by lia.
  set (u := if _ =? 0 then [] else _).
  replace (chars "1.." ++ dec (N.of_nat (length (expected None 0 cs))) ++ [10] ++ u) with ((chars "1.." ++ dec (N.of_nat (length (expected None 0 cs)))) ++ 10 :: u) by (rewrite <- app_assoc; reflexivity).
  assert (PL : forall x w, notes_of ((chars "1.." ++ dec x) ++ 10 :: w) = notes_of w).
  { intros x w. unfold notes_of. rewrite lines_cons; [reflexivity|]. apply ol_app; [lit|apply ol_dec]. }
  rewrite PL. subst u. unfold summary. destruct (N.of_nat (bads (expected None 0 cs)) =? 0); [reflexivity|]. rewrite note_read1 by one. reflexivity.
Qed.
