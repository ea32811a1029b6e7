(** Reading the report of a test program. *)
Require Import NArith ZArith PeanoNat String List Bool Lia ZifyBool ZifyN ZifyNat.
Require Import Verif.Tap_Model Verif.Tap_Spec.
Require Verif.Vtext_Spec Verif.Vtext_Model Verif.Vtext_Proofs Verif.Tlbdump_Spec Verif.Tlbdump_Model.
Import ListNotations.
Local Open Scope N_scope.
Local Open Scope list_scope.
Local Notation codes := Tlbdump_Spec.codes.
Local Notation chars := Vtext_Model.chars.
Local Notation dec := Tlbdump_Model.dec.
Local Notation split := Vtext_Spec.split.

(** ** Lines *)
Lemma some_app {A B} (f : A -> option B) a b : some f (a ++ b) = some f a ++ some f b.
Proof. apply flat_map_app. Qed.
Lemma lines_cons {B} (f : list N -> option B) l t : one_line l ->
  some f (split 10 (l ++ 10 :: t)) = match f l with Some y => [y] | None => [] end ++ some f (split 10 t).
Proof. intros H. rewrite Vtext_Proofs.split_app, Vtext_Proofs.split_none by exact H. reflexivity. Qed.
Lemma ol_app a b : one_line a -> one_line b -> one_line (a ++ b).
Proof. unfold one_line. intros A B I. apply in_app_or in I. tauto. Qed.
Lemma ol_dec n : one_line (dec n).
Proof. intros I. pose proof (Vtext_Proofs.dec_fine n) as F. rewrite Forall_forall in F. specialize (F _ I). unfold Vtext_Proofs.fine in F. lia. Qed.
Lemma ol_d32 n : one_line (d32 n).
Proof. unfold d32. destruct (n <? 2 ^ 31); [apply ol_dec|]. intros [I|I]; [discriminate|]. exact (ol_dec _ I). Qed.
Lemma ol_escape t : one_line t -> one_line (escape t).
Proof.
  unfold one_line, escape. intros H I. apply in_flat_map in I as (c & C & I). destruct (N.eqb_spec c 35) as [->|].
  - cbn in I. intuition discriminate.
  - destruct I as [->|[]]. contradiction.
Qed.
Ltac lit := let I := fresh in intros I; vm_compute in I; intuition discriminate.
Lemma note_skip {B} (f : list N -> option B) t u : (forall x, f (35 :: x) = None) -> one_line t ->
  some f (split 10 (note t ++ u)) = some f (split 10 u).
Proof.
  intros F H. unfold note. replace ((chars "# " ++ t ++ [10]) ++ u) with ((35 :: 32 :: t) ++ 10 :: u) by (cbn; rewrite <- app_assoc; reflexivity).
  rewrite lines_cons, F; [reflexivity|]. intros [I|[I|I]]; [discriminate|discriminate|contradiction].
Qed.
Lemma lr_note x : line_result (35 :: x) = None. Proof. reflexivity. Qed.
Lemma lp_note x : line_plan (35 :: x) = None. Proof. reflexivity. Qed.

(** ** Results *)
Lemma word_dec n r : (r = [] \/ exists r', r = 32 :: r') -> word (dec n ++ r) = (dec n, r).
Proof.
  intros E. assert (F : Forall Vtext_Proofs.fine (dec n)) by apply Vtext_Proofs.dec_fine. induction F as [|c l C F IH]; cbn [app word].
  - destruct E as [->|(r' & ->)]; reflexivity.
  - unfold Vtext_Proofs.fine in C. replace (c =? 32) with false by lia. rewrite IH. reflexivity.
Qed.
Lemma title_escape u : (u = [] \/ exists u', u = 32 :: u') -> forall t,
  title_of (escape t ++ u) = (t ++ fst (title_of u), snd (title_of u)).
Proof.
  intros E. induction t as [|c t IH]; [cbn; destruct (title_of u); reflexivity|].
  change (escape (c :: t)) with ((if c =? 35 then [92; 35] else [c]) ++ escape t).
  destruct (N.eqb_spec c 35) as [->|C].
  - cbn [app title_of]. change (92 =? 35) with false. change ((92 =? 92) && (35 =? 35)) with true. cbn match. rewrite IH. reflexivity.
  - rewrite <- app_assoc. cbn [app]. cbn [title_of]. replace (c =? 35) with false by lia.
    destruct (escape t ++ u) as [|d r] eqn:Q.
    + apply app_eq_nil in Q as [Q ->]. destruct t as [|x t]; [reflexivity|]. change (escape (x :: t)) with ((if x =? 35 then [92; 35] else [x]) ++ escape t) in Q.
      destruct (x =? 35); discriminate Q.
    + assert (D : d <> 35).
      { destruct t as [|x t].
        - cbn in Q. destruct E as [->|(u' & ->)]; [discriminate Q|]. injection Q as <- _. discriminate.
        - change (escape (x :: t)) with ((if x =? 35 then [92; 35] else [x]) ++ escape t) in Q. destruct (N.eqb_spec x 35); injection Q as <- _; [discriminate|assumption]. }
      replace ((c =? 92) && (d =? 35)) with false by lia. rewrite IH. reflexivity.
Qed.
Definition tail_text (todo : option (list N)) : list N := match todo with Some m => chars " # TODO " ++ m | None => [] end.
Lemma tail_space todo : tail_text todo = [] \/ exists r', tail_text todo = 32 :: r'.
Proof. destruct todo; [right; eexists; reflexivity|now left]. Qed.
Lemma read_result (ok : bool) n name todo : n < 2 ^ 31 ->
  line_result ((if ok then [] else chars "not ") ++ chars "ok " ++ dec n ++ name_text name ++ tail_text todo)
  = Some (mk_result ok n (option_map (text "libtap malloc issue") name) (option_map Todo todo)).
Proof.
  intros B. assert (V : Vtext_Spec.decimal (dec n) = n).
  { apply Vtext_Proofs.decimal_dec. change (2 ^ 31) with 2147483648 in B. change (10 ^ 20) with 100000000000000000000. lia. }
  assert (S0 : name_text name ++ tail_text todo = [] \/ exists r', name_text name ++ tail_text todo = 32 :: r').
  { destruct name as [[t|]|]; [right; eexists; reflexivity|right; eexists; reflexivity|apply tail_space]. }
  unfold line_result.
  assert (A : after (codes "not ") ((if ok then [] else chars "not ") ++ chars "ok " ++ dec n ++ name_text name ++ tail_text todo)
     = if ok then None else Some (chars "ok " ++ dec n ++ name_text name ++ tail_text todo)) by (destruct ok; reflexivity).
  rewrite A. clear A.
  assert (X : match after (codes "ok ") (chars "ok " ++ dec n ++ name_text name ++ tail_text todo) with
   | None => None
   | Some r =>
      let (n, r) := word r in
      let n := Vtext_Spec.decimal n in
      match after (codes " - ") r with
      | Some u =>
          match title_of u with
          | (a, None) => Some (mk_result ok n (Some a) None)
          | (a, Some v) => Some (mk_result ok n (Some (removelast a)) (mark_in v))
          end
      | None => Some (mk_result ok n None (match after (codes " #") r with Some v => mark_in v | None => None end))
      end
   end = Some (mk_result ok n (option_map (text "libtap malloc issue") name) (option_map Todo todo))).
  { change (after (codes "ok ") (chars "ok " ++ dec n ++ name_text name ++ tail_text todo)) with (Some (dec n ++ name_text name ++ tail_text todo)).
    cbv iota. rewrite (word_dec n _ S0). cbv zeta. rewrite V.
    assert (TT : forall t, match title_of (escape t ++ tail_text todo) with
          | (a, None) => Some (mk_result ok n (Some a) None)
          | (a, Some v) => Some (mk_result ok n (Some (removelast a)) (mark_in v))
          end = Some (mk_result ok n (Some t) (option_map Todo todo))).
    { intros t. rewrite (title_escape (tail_text todo) (tail_space todo)). destruct todo as [m|].
      - cbn [tail_text option_map]. change (title_of (chars " # TODO " ++ m)) with ([32], Some (codes " TODO " ++ m)). cbn [fst snd].
        rewrite removelast_last. reflexivity.
      - cbn. rewrite app_nil_r. reflexivity. }
    destruct name as [[t|]|]; cbn [name_text option_map text].
    - change (after (codes " - ") ((chars " - " ++ escape t) ++ tail_text todo)) with (Some (escape t ++ tail_text todo)). exact (TT t).
    - change (after (codes " - ") ((chars " - " ++ fixed_text) ++ tail_text todo)) with (Some (fixed_text ++ tail_text todo)).
      change fixed_text with (escape (codes "libtap malloc issue")). exact (TT (codes "libtap malloc issue")).
    - destruct todo; reflexivity. }
  destruct ok; exact X.
Qed.
Lemma read_skip n m : n < 2 ^ 31 ->
  line_result (chars "ok " ++ dec n ++ chars " # skip " ++ m) = Some (mk_result true n None (Some (Skipped m))).
Proof.
  intros B. assert (V : Vtext_Spec.decimal (dec n) = n).
  { apply Vtext_Proofs.decimal_dec. change (2 ^ 31) with 2147483648 in B. change (10 ^ 20) with 100000000000000000000. lia. }
  unfold line_result. change (after (codes "not ") (chars "ok " ++ dec n ++ chars " # skip " ++ m)) with (@None (list N)).
  cbv iota. change (after (codes "ok ") (chars "ok " ++ dec n ++ chars " # skip " ++ m)) with (Some (dec n ++ chars " # skip " ++ m)).
  cbv iota. rewrite word_dec by (right; eexists; reflexivity). cbv zeta. rewrite V. reflexivity.
Qed.
Lemma plan_result (ok : bool) x : line_plan ((if ok then [] else chars "not ") ++ chars "ok " ++ x) = None.
Proof. destruct ok; reflexivity. Qed.
Lemma d32_small n : n < 2 ^ 31 -> d32 n = dec n.
Proof. intros B. unfold d32. replace (n <? 2 ^ 31) with true by lia. reflexivity. Qed.
Lemma u32_small n : n < 2 ^ 31 -> u32 n = n.
Proof. intros B. unfold u32. apply N.mod_small. change (2 ^ 31) with 2147483648 in B. change (2 ^ 32) with 4294967296. lia. Qed.

(** ** One call *)
Definition state_of (s : tap) (todo : option (list N)) (freed : bool) : Prop :=
  t_todo s = (match todo with Some _ => true | None => false end) /\
  (t_msg s = MFreed -> freed = true) /\
  match todo with Some m => todo_text s = tail_text todo | None => True end.
Lemma ol_name name : match name with Some o => one_line' o | None => True end -> one_line (name_text name).
Proof.
  destruct name as [[t|]|]; cbn; intros H; [|lit|lit]. apply (ol_app (chars " - ")); [lit|apply ol_escape; exact H].
Qed.
Lemma notes_skip {B} (f : list N -> option B) name u : (forall x, f (35 :: x) = None) -> match name with Some o => one_line' o | None => True end ->
  some f (split 10 (name_notes name ++ u)) = some f (split 10 u).
Proof.
  intros F H. destruct name as [[t|]|]; [|reflexivity|reflexivity]. cbn [name_notes]. destruct (forallb digit_or_space t); [|reflexivity].
  rewrite <- app_assoc, (note_skip f _ _ F), (note_skip f _ _ F); [reflexivity|lit|].
  apply ol_app; [lit|]. apply ol_app; [exact H|lit].
Qed.
Lemma gen_read {B} (f : list N -> option B) s todo freed ok func file line name u : (forall x, f (35 :: x) = None) ->
  state_of s todo freed -> clean (TOk ok func file line name) -> one_line' todo -> t_count s + 1 < 2 ^ 31 ->
  some f (split 10 (gen_text s ok func file line name ++ u))
  = match f ((if ok then [] else chars "not ") ++ chars "ok " ++ dec (t_count s + 1) ++ name_text name ++ tail_text todo) with Some y => [y] | None => [] end
    ++ some f (split 10 u).
Proof.
  intros F (S1 & _ & S2) (C1 & C2 & C3) T BB. unfold gen_text. rewrite u32_small, d32_small by exact BB.
  assert (TT : (if t_todo s then todo_text s else []) = tail_text todo) by (rewrite S1; destruct todo; [exact S2|reflexivity]).
  rewrite TT. rewrite <- !app_assoc. rewrite (notes_skip f name _ F C3).
  set (fl := if ok then [] else note _).
  replace ((if ok then [] else chars "not ") ++ chars "ok " ++ dec (t_count s + 1) ++ name_text name ++ tail_text todo ++ [10] ++ fl ++ u)
    with (((if ok then [] else chars "not ") ++ chars "ok " ++ dec (t_count s + 1) ++ name_text name ++ tail_text todo) ++ 10 :: (fl ++ u))
    by (rewrite <- !app_assoc; reflexivity).
  rewrite lines_cons.
  - f_equal. subst fl. destruct ok; [reflexivity|]. apply (note_skip f); [exact F|].
    apply ol_app; [lit|]. apply ol_app; [destruct (t_todo s); lit|]. apply ol_app; [lit|]. apply ol_app; [exact C2|].
    apply ol_app; [lit|]. apply ol_app; [exact C1|]. apply ol_app; [lit|]. apply ol_app; [apply ol_d32|lit].
  - apply ol_app; [destruct ok; lit|]. apply ol_app; [lit|]. apply ol_app; [apply ol_dec|]. apply ol_app; [apply ol_name; exact C3|].
    destruct todo as [m|]; [|lit]. apply ol_app; [lit|exact T].
Qed.
Lemma skip_read m : one_line m -> forall n c u, c + N.of_nat n < 2 ^ 31 ->
  snd (skip_loop n c m) = c + N.of_nat n /\
  results_of (fst (skip_loop n c m) ++ u) = map (fun i => mk_result true (c + N.of_nat i) None (Some (Skipped m))) (seq 1 n) ++ results_of u /\
  plans_of (fst (skip_loop n c m) ++ u) = plans_of u.
Proof.
  intros M. induction n as [|n IH]; intros c u B.
  - cbn. split; [lia|]. split; reflexivity.
  - cbn [skip_loop]. rewrite u32_small by (change (2 ^ 31) with 2147483648 in *; lia).
    specialize (IH (c + 1) u ltac:(lia)). destruct (skip_loop n (c + 1) m) as [t c'] eqn:E. cbn [fst snd] in *. destruct IH as (I1 & I2 & I3).
    rewrite d32_small by lia. split; [lia|].
    replace ((chars "ok " ++ dec (c + 1) ++ chars " # skip " ++ m ++ [10] ++ t) ++ u)
      with ((chars "ok " ++ dec (c + 1) ++ chars " # skip " ++ m) ++ 10 :: (t ++ u)) by (rewrite <- !app_assoc; reflexivity).
    assert (O : one_line (chars "ok " ++ dec (c + 1) ++ chars " # skip " ++ m)).
    { apply ol_app; [lit|]. apply ol_app; [apply ol_dec|]. apply ol_app; [lit|exact M]. }
    unfold results_of, plans_of in *. rewrite !lines_cons by exact O. rewrite read_skip by lia. split.
    + rewrite I2. cbn [seq map app]. f_equal. rewrite <- (seq_shift n 1), map_map. f_equal. apply map_ext. intros i. f_equal. lia.
    + exact I3.
Qed.

(** ** Whole programs *)
Definition badb (r : result) : bool := negb (passed r) && match marked r with Some (Todo _) => false | _ => true end.
Definition bads (l : list result) : nat := length (filter badb l).
Lemma bads_app a b : bads (a ++ b) = (bads a + bads b)%nat.
Proof. unfold bads. rewrite filter_app, app_length. reflexivity. Qed.
Lemma bads_le l : (bads l <= length l)%nat.
Proof. unfold bads. induction l as [|x l IH]; [apply le_n|]. cbn. destruct (badb x); cbn; lia. Qed.
Lemma bads_skips f n k : (forall i, badb (f i) = false) -> bads (map f (seq n k)) = 0%nat.
Proof. intros H. unfold bads. revert n. induction k as [|k IH]; intros n; [reflexivity|]. cbn. rewrite H. apply IH. Qed.

Definition final (s : tap) (n : N) (f : N) : Prop := t_count s = n /\ t_failures s = f.
Definition same_plan (s s' : tap) : Prop :=
  t_init s' = t_init s /\ t_no_plan s' = t_no_plan s /\ t_skip_all s' = t_skip_all s /\ t_have_plan s' = t_have_plan s /\
  t_expected s' = t_expected s /\ t_died s' = t_died s.
Lemma body_read : forall cs s todo freed, state_of s todo freed -> one_line' todo -> proper freed cs -> Forall clean cs ->
  t_failures s <= t_count s -> t_count s + N.of_nat (length (expected todo (t_count s) cs)) < 2 ^ 31 ->
  exists out s', tap_run s cs = Some (out ++ cleanup s', exit_status s') /\ same_plan s s' /\
    t_count s' = t_count s + N.of_nat (length (expected todo (t_count s) cs)) /\
    t_failures s' = t_failures s + N.of_nat (bads (expected todo (t_count s) cs)) /\
    (forall u, results_of (out ++ u) = expected todo (t_count s) cs ++ results_of u) /\ (forall u, plans_of (out ++ u) = plans_of u).
Proof.
  induction cs as [|c cs IH]; intros s todo freed S T P C FC B.
  - exists [], s. cbn. repeat split; try reflexivity; lia.
  - inversion C as [|? ? C1 C2]; subst. cbn [tap_run]. destruct c as [k| |r|ok func file line name|t|k m|m|]; cbn [proper] in P; try contradiction; cbn [tap_call].
    + cbn [expected length] in *. set (s1 := gen_state s ok).
      assert (B1 : t_count s + 1 < 2 ^ 31) by lia.
      assert (E1 : t_count s1 = t_count s + 1) by (apply u32_small; exact B1).
      assert (F1 : t_failures s1 = t_failures s + N.of_nat (if badb (mk_result ok (t_count s + 1) (option_map (text "libtap malloc issue") name) (option_map Todo todo)) then 1 else 0)).
      { subst s1. cbn [gen_state t_failures]. destruct S as (S1 & _). rewrite S1. unfold badb. cbn [passed marked]. destruct ok; cbn; [lia|]. destruct todo; cbn; [lia|].
        apply u32_small. lia. }
      destruct (IH s1 todo freed) as (out & s' & R & SP & X1 & X2 & X3 & X4).
      { exact S. } { exact T. } { exact P. } { exact C2. }
      { rewrite F1, E1. destruct (badb _); lia. }
      { rewrite E1. lia. }
      rewrite R. exists (gen_text s ok func file line name ++ out), s'. rewrite E1 in *. rewrite <- app_assoc. split; [reflexivity|]. split; [exact SP|].
      split; [lia|]. split.
      * rewrite X2, F1. unfold bads. cbn [filter]. destruct (badb _); cbn [length]; lia.
      * split; intros u; rewrite <- app_assoc; unfold results_of, plans_of in *.
        -- rewrite (gen_read line_result s todo freed ok func file line name _ lr_note S C1 T B1), read_result by exact B1. rewrite X3. reflexivity.
        -- rewrite (gen_read line_plan s todo freed ok func file line name _ lp_note S C1 T B1), plan_result. apply X4.
    + cbn [expected] in *. destruct (IH s todo freed S T P C2 FC B) as (out & s' & R & SP & X1 & X2 & X3 & X4).
      rewrite R. exists (note t ++ out), s'. rewrite <- app_assoc. repeat (split; [first [reflexivity|assumption]|]).
      split; intros u; rewrite <- app_assoc; unfold results_of, plans_of in *.
      * rewrite (note_skip line_result t _ lr_note C1). apply X3.
      * rewrite (note_skip line_plan t _ lp_note C1). apply X4.
    + cbn [expected] in *. rewrite app_length, map_length, seq_length in *.
      set (mt := match m with Some t => t | None => _ end).
      assert (Q : text "libtap():malloc() failed" m = mt) by (subst mt; destruct m; reflexivity).
      assert (OM : one_line mt) by (subst mt; destruct m as [t|]; [exact C1|lit]).
      assert (SK := skip_read mt OM k (t_count s)). destruct (skip_loop k (t_count s) mt) as [t c'] eqn:SL. cbn [fst snd] in SK.
      assert (E1 : c' = t_count s + N.of_nat k) by (apply (SK []); lia).
      set (s1 := mk_tap _ _ _ _ _ _ _ _ _ _).
      destruct (IH s1 todo freed) as (out & s' & R & SP & X1 & X2 & X3 & X4).
      { exact S. } { exact T. } { exact P. } { exact C2. }
      { subst s1. cbn. lia. }
      { subst s1. cbn. rewrite E1. lia. }
      rewrite R. exists (t ++ out), s'. subst s1. cbn [t_count t_failures] in *. rewrite E1 in *. rewrite <- app_assoc. split; [reflexivity|]. split; [exact SP|].
      split; [lia|]. split.
      * rewrite X2, bads_app, bads_skips by reflexivity. lia.
      * split; intros u; rewrite <- app_assoc; destruct (SK (out ++ u) ltac:(lia)) as (_ & Y1 & Y2).
        -- rewrite Y1, X3, Q. apply app_assoc.
        -- rewrite Y2. apply X4.
    + cbn [expected] in *. set (s1 := mk_tap _ _ _ _ _ _ _ _ _ _).
      destruct (IH s1 (Some (text "libtap malloc issue" m)) false) as (out & s' & R & SP & X1 & X2 & X3 & X4).
      { subst s1. split; [reflexivity|]. split; [destruct m; discriminate|]. destruct m; reflexivity. }
      { destruct m as [t|]; [exact C1|lit]. } { exact P. } { exact C2. } { exact FC. } { exact B. }
      rewrite R. exists out, s'. split; [reflexivity|]. split; [exact SP|]. split; [exact X1|]. split; [exact X2|]. split; [exact X3|exact X4].
    + cbn [expected] in *. destruct P as (-> & P). destruct S as (S1 & S2 & S3).
      assert (G : forall ms, exists out s', match tap_run (mk_tap (t_init s) (t_no_plan s) (t_skip_all s) (t_have_plan s) (t_count s) (t_expected s) (t_failures s) false ms (t_died s)) cs with
         | Some (t, r) => Some ([] ++ t, r) | None => None end = Some (out ++ cleanup s', exit_status s') /\ same_plan s s' /\
         t_count s' = t_count s + N.of_nat (length (expected None (t_count s) cs)) /\
         t_failures s' = t_failures s + N.of_nat (bads (expected None (t_count s) cs)) /\
         (forall u, results_of (out ++ u) = expected None (t_count s) cs ++ results_of u) /\ (forall u, plans_of (out ++ u) = plans_of u)).
      { intros ms. set (s1 := mk_tap _ _ _ _ _ _ _ _ _ _).
        destruct (IH s1 None true) as (out & s' & R & SP & X1 & X2 & X3 & X4).
        { split; [reflexivity|]. split; [reflexivity|exact I]. } { exact I. } { exact P. } { exact C2. } { exact FC. } { exact B. }
        rewrite R. exists out, s'. split; [reflexivity|]. split; [exact SP|]. split; [exact X1|]. split; [exact X2|]. split; [exact X3|exact X4]. }
      destruct (t_msg s) eqn:M; [apply G|apply G|]. specialize (S2 eq_refl). discriminate S2.
Qed.
Lemma bads_zero l : bads l = 0%nat <-> Forall (fun r => ~ bad r) l.
Proof.
  unfold bads. induction l as [|x l IH]; [split; [constructor|reflexivity]|].
  assert (X : badb x = true <-> bad x).
  { unfold badb, bad. destruct (passed x), (marked x) as [[]|]; cbn; split; intros H; try reflexivity; try discriminate H; try (destruct H as [H H']; first [discriminate H|contradiction|exact (False_ind _ (H' _ eq_refl))]); (split; [reflexivity|first [exact I|discriminate|intros; discriminate]]). }
  cbn [filter]. split.
  - intros H. destruct (badb x) eqn:E; [discriminate H|]. constructor; [rewrite <- X; discriminate|apply IH; exact H].
  - intros H. inversion H as [|? ? H1 H2]; subst. destruct (badb x) eqn:E; [destruct H1; apply X; reflexivity|]. apply IH. exact H2.
Qed.
Lemma plan_line n u : n < 2 ^ 31 -> plans_of (chars "1.." ++ d32 n ++ [10] ++ u) = n :: plans_of u /\ results_of (chars "1.." ++ d32 n ++ [10] ++ u) = results_of u.
Proof.
  intros B. rewrite d32_small by exact B.
  replace (chars "1.." ++ dec n ++ [10] ++ u) with ((chars "1.." ++ dec n) ++ 10 :: u) by (rewrite <- app_assoc; reflexivity).
  assert (O : one_line (chars "1.." ++ dec n)) by (apply ol_app; [lit|apply ol_dec]).
  unfold plans_of, results_of. rewrite !lines_cons by exact O.
  change (line_result (chars "1.." ++ dec n)) with (@None result).
  change (line_plan (chars "1.." ++ dec n)) with (Some (Vtext_Spec.decimal (dec n))).
  rewrite Vtext_Proofs.decimal_dec; [split; reflexivity|]. change (2 ^ 31) with 2147483648 in B. change (10 ^ 20) with 100000000000000000000. lia.
Qed.
Ltac one := repeat (apply ol_app; [first [apply ol_d32|lit]|]); lit.
Ltac notes := unfold results_of, plans_of; repeat match goal with
  | |- context [some ?f (split 10 (note ?t ++ ?u))] => rewrite (note_skip f t u) by (first [exact lr_note|exact lp_note|one])
  | |- context [some ?f (split 10 (note ?t))] => rewrite <- (app_nil_r (note t)), (note_skip f t []) by (first [exact lr_note|exact lp_note|one])
  end; try reflexivity.
(** with a plan *)
Theorem planned : forall n cs, 0 < n < 2 ^ 31 -> proper false cs -> Forall clean cs -> N.of_nat (length (expected None 0 cs)) < 2 ^ 31 ->
  exists out r, tap_run tap0 (TPlan n :: cs) = Some (out, r) /\ results_of out = expected None 0 cs /\ plans_of out = [n] /\ r <= 255 /\
    (r = 0 <-> N.of_nat (length (expected None 0 cs)) = n /\ Forall (fun x => ~ bad x) (expected None 0 cs)).
Proof.
  intros n cs [B1 B2] P C L. cbn [tap_run tap_call tap0 t_have_plan t_init]. replace (n =? 0) with false by lia.
  set (s1 := mk_tap _ _ _ _ _ _ _ _ _ _).
  destruct (body_read cs s1 None false) as (out & s' & R & SP & X1 & X2 & X3 & X4).
  { split; [reflexivity|]. split; [discriminate|exact I]. } { exact I. } { exact P. } { exact C. } { apply N.le_refl. } { exact L. }
  rewrite R. change (t_count s1) with 0 in *. change (t_failures s1) with 0 in *. rewrite N.add_0_l in *.
  destruct SP as (Q1 & Q2 & Q3 & Q4 & Q5 & Q6). subst s1. cbn in Q1, Q2, Q3, Q4, Q5, Q6.
  assert (CL : forall (B : Type) (f : list N -> option B), (forall x, f (35 :: x) = None) -> f [] = None -> some f (split 10 (cleanup s')) = []).
  { intros B f F F0. unfold cleanup. rewrite Q1, Q2, Q3, Q4, Q6. cbn [negb andb orb].
    assert (E0 : some f (split 10 []) = []) by (cbn; rewrite F0; reflexivity).
    assert (N1 : forall t, one_line t -> some f (split 10 (note t)) = []).
    { intros t O. rewrite <- (app_nil_r (note t)), (note_skip f t [] F O). exact E0. }
    cbn [app]. destruct (t_expected s' <? t_count s'); [apply N1; one|]. destruct (t_count s' <? t_expected s').
    - rewrite (note_skip f _ _ F) by one. destruct (t_failures s' =? 0); [exact E0|apply N1; one].
    - destruct (t_failures s' =? 0); [exact E0|apply N1; one]. }
  eexists. eexists. split; [reflexivity|]. rewrite <- !app_assoc.
  destruct (plan_line n (out ++ cleanup s') B2) as [Y1 Y2]. rewrite Y1, Y2, X3, X4.
  unfold results_of at 1, plans_of at 1. rewrite !CL by reflexivity. rewrite app_nil_r. split; [reflexivity|]. split; [reflexivity|].
  pose proof (bads_le (expected None 0 cs)) as BL. rewrite <- bads_zero.
  unfold exit_status, exit_int. cbv zeta. rewrite Q2, Q4, Q5, X1, X2. cbn [negb orb].
  change (2 ^ 31) with 2147483648 in *. unfold u32. change (2 ^ 32) with 4294967296.
  assert (BN : N.of_nat (bads (expected None 0 cs)) <= N.of_nat (length (expected None 0 cs))) by lia.
  clear - BN B1 B2 L. set (len := N.of_nat (length (expected None 0 cs))) in *. set (b := bads (expected None 0 cs)) in *. clearbody len b.
  destruct (n <? len) eqn:E1.
  - replace (len - n <? 2147483648) with true by lia. destruct (255 <? len - n) eqn:E2; cbv iota; lia.
  - replace ((N.of_nat b + n + 4294967296 - len) mod 4294967296) with (N.of_nat b + (n - len)).
    + replace (N.of_nat b + (n - len) <? 2147483648) with true by lia. destruct (255 <? N.of_nat b + (n - len)) eqn:E2; cbv iota; lia.
    + replace (N.of_nat b + n + 4294967296 - len) with (N.of_nat b + (n - len) + 1 * 4294967296) by lia.
      rewrite N.mod_add by discriminate. symmetry. apply N.mod_small. lia.
Qed.
(** without a plan *)
Theorem unplanned : forall cs, proper false cs -> Forall clean cs -> N.of_nat (length (expected None 0 cs)) < 2 ^ 31 ->
  exists out r, tap_run tap0 (TNoPlan :: cs) = Some (out, r) /\ results_of out = expected None 0 cs /\
    plans_of out = [N.of_nat (length (expected None 0 cs))] /\ r <= 255 /\ (r = 0 <-> Forall (fun x => ~ bad x) (expected None 0 cs)).
Proof.
  intros cs P C L. cbn [tap_run tap_call tap0 t_have_plan t_init].
  set (s1 := mk_tap _ _ _ _ _ _ _ _ _ _).
  destruct (body_read cs s1 None false) as (out & s' & R & SP & X1 & X2 & X3 & X4).
  { split; [reflexivity|]. split; [discriminate|exact I]. } { exact I. } { exact P. } { exact C. } { apply N.le_refl. } { exact L. }
  rewrite R. change (t_count s1) with 0 in *. change (t_failures s1) with 0 in *. rewrite N.add_0_l in *.
  destruct SP as (Q1 & Q2 & Q3 & Q4 & Q5 & Q6). subst s1. cbn in Q1, Q2, Q3, Q4, Q5, Q6.
  eexists. eexists. split; [reflexivity|]. cbn [app]. rewrite X3, X4.
  unfold cleanup. rewrite Q1, Q2, Q3, Q4, Q5, Q6. cbn [negb andb orb]. replace (t_count s' <? 0) with false by lia.
  rewrite <- !app_assoc. rewrite X1. set (u := if t_failures s' =? 0 then [] else note _).
  destruct (plan_line (N.of_nat (length (expected None 0 cs))) u L) as [Y1 Y2]. rewrite Y1, Y2.
  assert (Z : forall (B : Type) (f : list N -> option B), (forall x, f (35 :: x) = None) -> f [] = None -> some f (split 10 u) = []).
  { intros B f F F0. assert (E0 : some f (split 10 []) = []) by (cbn; rewrite F0; reflexivity). subst u.
    destruct (t_failures s' =? 0); [exact E0|]. rewrite <- (app_nil_r (note _)), (note_skip f _ [] F); [exact E0|one]. }
  unfold results_of at 1, plans_of at 1. rewrite !Z by reflexivity. rewrite app_nil_r. split; [reflexivity|]. split; [reflexivity|].
  pose proof (bads_le (expected None 0 cs)) as BL. rewrite <- bads_zero. unfold exit_status, exit_int. cbv zeta. rewrite Q2, X2. cbn [orb].
  change (2 ^ 31) with 2147483648 in *.
  assert (BN : N.of_nat (bads (expected None 0 cs)) < 2147483648) by lia. clear - BN. set (b := bads (expected None 0 cs)) in *. clearbody b.
  replace (N.of_nat b <? 2147483648) with true by lia. destruct (255 <? N.of_nat b) eqn:E2; cbv iota; lia.
Qed.
(** A second plan, or one of no tests *)
Theorem plan_once : forall s n cs, t_have_plan s = true \/ n = 0 ->
  exists out, tap_run s (TPlan n :: cs) = Some (out, 255) /\ results_of out = [] /\ plans_of out = [].
Proof.
  intros s n cs H. exists (cleanup (die s)). split.
  - cbn [tap_run tap_call]. destruct (t_have_plan s) eqn:E; [reflexivity|]. destruct H as [H| ->]; [discriminate|]. reflexivity.
  - unfold cleanup, die. cbn [t_init t_no_plan t_have_plan t_skip_all t_died t_count negb]. destruct (negb (t_no_plan s) && negb (t_have_plan s) && negb (t_skip_all s)); [split; reflexivity|].
    split; unfold results_of, plans_of; rewrite <- (app_nil_r (note _)).
    + rewrite (note_skip line_result _ [] lr_note); [reflexivity|]. apply (ol_app (chars "Looks like your test died just after ")); [lit|]. apply ol_app; [apply ol_d32|lit].
    + rewrite (note_skip line_plan _ [] lp_note); [reflexivity|]. apply (ol_app (chars "Looks like your test died just after ")); [lit|]. apply ol_app; [apply ol_d32|lit].
Qed.
