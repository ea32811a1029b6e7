(** Reading the output of qtrace-bbv. *)
Require Import NArith PeanoNat List Bool String Ascii Sorted Permutation Lia ZifyBool ZifyN ZifyNat.
Require Import Verif.Word Verif.Matrix_Model Verif.Matrix_Spec Verif.Pam_Model Verif.Bbv_Model Verif.Bbv_Spec Verif.Vtext_Model Verif.Vtext_Spec
  Verif.Bbvtext_Model Verif.Bbvtext_Spec.
Require Verif.Bbv_Proofs3 Verif.Vtext_Proofs Verif.Matrix_Proofs Verif.Table_Model Verif.Tlbdump_Model Verif.Tlbdump_Spec Verif.Start_Proofs Verif.Args_Spec.
Import ListNotations.
Local Open Scope N_scope.
Local Open Scope list_scope.
Local Notation codes := Tlbdump_Spec.codes.
Local Notation dec := Tlbdump_Model.dec.

(** ** Numbers *)
Lemma dec_digits n : Forall (fun c => 48 <= c) (dec n).
Proof.
  unfold dec. rewrite Start_Proofs.decimal_text. unfold Args_Spec.text_of. apply Forall_forall. intros c I.
  apply in_map_iff in I as (d & <- & _). lia.
Qed.
Lemma dec_no n c : c < 48 -> ~ In c (dec n).
Proof. intros B I. pose proof (dec_digits n) as F. rewrite Forall_forall in F. specialize (F c I). cbn in F. lia. Qed.
Lemma dec_bound n : forall c, In c (dec n) -> c < 58.
Proof.
  intros c. unfold dec. rewrite Start_Proofs.decimal_text. unfold Args_Spec.text_of. intros I.
  apply in_map_iff in I as (d & <- & I).
  assert (G : forall k v, Forall (fun d => d < 10) (Start_Proofs.dec k v)).
  { induction k as [|k IH]; intros v; [constructor|]. cbn [Start_Proofs.dec]. apply Forall_app. split.
    - destruct (_ <? _); [constructor|apply IH].
    - constructor; [|constructor]. apply N.mod_lt. discriminate. }
  specialize (G 20%nat n). rewrite Forall_forall in G. specialize (G d I). cbn in G. lia.
Qed.
Lemma dec_cons n : exists c t, dec n = c :: t /\ 48 <= c < 58.
Proof.
  pose proof (Vtext_Proofs.dec_nonempty n) as E. pose proof (dec_digits n) as F. pose proof (dec_bound n) as B.
  destruct (dec n) as [|c t]; [congruence|]. exists c, t. split; [reflexivity|].
  split; [exact (Forall_inv F)|apply B; left; reflexivity].
Qed.
Lemma decimal_small n : n <= 2 ^ 64 -> decimal (dec n) = n.
Proof.
  intros B. apply Vtext_Proofs.decimal_dec. change (2 ^ 64) with 18446744073709551616 in *. change (10 ^ 20) with 100000000000000000000. lia.
Qed.
Lemma number_dec n : n <= 2 ^ 64 -> number (dec n) = n.
Proof.
  intros B. pose proof (decimal_small n B) as D. destruct (dec_cons n) as (c & t & E & R). rewrite E in *. unfold number.
  replace (c =? 45) with false by lia. exact D.
Qed.
Lemma number_minus n : 0 < n <= 2 ^ 64 -> number (45 :: dec n) = 2 ^ 64 - n.
Proof.
  intros [P B]. unfold number. cbn [N.eqb Pos.eqb]. rewrite decimal_small by exact B. apply N.mod_small.
  change (2 ^ 64) with 18446744073709551616 in *. lia.
Qed.
Lemma ld_form v : (exists n, ld v = dec n /\ n <= 2 ^ 64 /\ v mod 2 ^ 64 = n)
                  \/ (exists n, ld v = 45 :: dec n /\ 0 < n <= 2 ^ 64 /\ v mod 2 ^ 64 = 2 ^ 64 - n).
Proof.
  unfold ld, Table_Model.li. assert (U : u64 v = v mod 2 ^ 64) by reflexivity. rewrite U.
  assert (B : v mod 2 ^ 64 < 2 ^ 64) by (apply N.mod_lt; discriminate). generalize dependent (v mod 2 ^ 64). intros x _ B.
  destruct (x <? 2 ^ 63).
  - left. exists x. repeat split. lia.
  - right. exists (2 ^ 64 - x). change (2 ^ 64) with 18446744073709551616 in *. repeat split; lia.
Qed.
Lemma number_ld v : number (ld v) = v mod 2 ^ 64.
Proof.
  destruct (ld_form v) as [(n & -> & B & ->)|(n & -> & B & ->)]; [apply number_dec; exact B|apply number_minus; exact B].
Qed.
Lemma ld_no v c : c < 45 -> ~ In c (ld v).
Proof.
  intros B. destruct (ld_form v) as [(n & -> & _)|(n & -> & _)]; [apply dec_no; lia|].
  intros [E|I]; [lia|]. revert I. apply dec_no. lia.
Qed.
Lemma ld_cons v : exists c t, ld v = c :: t /\ 45 <= c < 58.
Proof.
  destruct (ld_form v) as [(n & -> & _)|(n & -> & _)].
  - destruct (dec_cons n) as (c & t & -> & R). exists c, t. split; [reflexivity|lia].
  - exists 45, (dec n). split; [reflexivity|lia].
Qed.
Lemma range_ld a b : range (ld a ++ 45 :: ld b) = (a mod 2 ^ 64, b mod 2 ^ 64).
Proof.
  assert (X : forall n, split 45 (dec n) = [dec n]) by (intros n; apply Vtext_Proofs.split_none; apply dec_no; lia).
  assert (Y : forall n, split 45 (45 :: dec n) = [[]; dec n]) by (intros n; cbn [split N.eqb Pos.eqb]; rewrite X; reflexivity).
  unfold range. rewrite Vtext_Proofs.split_app.
  destruct (ld_form a) as [(n & -> & B & ->)|(n & -> & B & ->)]; destruct (ld_form b) as [(k & -> & C & ->)|(k & -> & C & ->)];
    rewrite ?X, ?Y; cbn [app].
  - rewrite !decimal_small by assumption. reflexivity.
  - destruct (dec_cons n) as (c & t & E & _). assert (Z : blank (dec n) = false) by (rewrite E; reflexivity). rewrite Z.
    rewrite decimal_small, number_minus by assumption. reflexivity.
  - cbn [blank]. rewrite decimal_small, number_minus by assumption. reflexivity.
  - rewrite !number_minus by assumption. reflexivity.
Qed.

(** ** Lines *)
Definition unlines (ls : list (list N)) : list N := flat_map (fun l => l ++ [10]) ls.
Lemma lines_back : forall ls, Forall (fun l => ~ In 10 l) ls -> removelast (split 10 (unlines ls)) = ls.
Proof.
  assert (G : forall ls, Forall (fun l => ~ In 10 l) ls -> split 10 (unlines ls) = ls ++ [[]]).
  { induction ls as [|l ls IH]; intros F; [reflexivity|]. inversion F; subst. cbn [unlines flat_map]. rewrite <- app_assoc. cbn [app].
    rewrite Vtext_Proofs.split_app, Vtext_Proofs.split_none by assumption. fold (unlines ls). rewrite IH by assumption. reflexivity. }
  intros ls F. rewrite G by exact F. apply removelast_last.
Qed.
Lemma unlines_app a b : unlines (a ++ b) = unlines a ++ unlines b.
Proof. apply flat_map_app. Qed.

Lemma unlines_cons l ls : unlines (l :: ls) = (l ++ [10]) ++ unlines ls.
Proof. reflexivity. Qed.

Lemma classify_other c t : 45 <= c < 58 -> classify (c :: t) =
    let fs := split 9 (c :: t) in
    if blank (last fs []) then LRow (List.map number (removelast fs))
    else match fs with
         | [x] => LNumber (number x)
         | [x; y] => LMedoid (fst (range x)) (snd (range x)) (number y)
         | _ => LOther
         end.
Proof.
  intros R. unfold classify. cbn [blank].
  assert (A : forall u, is (String "M" u) (c :: t) = false).
  { intros u. unfold is. cbn [Tlbdump_Spec.codes same]. change (N_of_ascii "M") with 77. replace (77 =? c) with false by lia. reflexivity. }
  rewrite !A.
  assert (B : forall x u, (N_of_ascii x =? c) = false -> starts (String x u) (c :: t) = false).
  { intros x u E. unfold starts, is. cbn [String.length firstn Tlbdump_Spec.codes same]. rewrite E. reflexivity. }
  rewrite !B; [reflexivity| |].
  - change (N_of_ascii "C") with 67. lia.
  - change (N_of_ascii "T") with 84. lia.
Qed.
Lemma blank_ld v : blank (ld v) = false.
Proof. destruct (ld_cons v) as (c & t & -> & _). reflexivity. Qed.
Lemma classify_ld v : classify (ld v) = LNumber (v mod 2 ^ 64).
Proof.
  destruct (ld_cons v) as (c & t & E & R). rewrite <- number_ld. pose proof (blank_ld v) as Z. pose proof (ld_no v 9 eq_refl) as S9.
  rewrite E in *. rewrite classify_other by exact R. cbv zeta. rewrite Vtext_Proofs.split_none by exact S9. cbn [last]. rewrite Z. reflexivity.
Qed.
Lemma classify_medoid a b n : classify (ld a ++ [45] ++ ld b ++ [9] ++ ld n) = LMedoid (a mod 2 ^ 64) (b mod 2 ^ 64) (n mod 2 ^ 64).
Proof.
  assert (X : split 9 (ld a ++ [45] ++ ld b ++ [9] ++ ld n) = [ld a ++ 45 :: ld b; ld n]).
  { replace (ld a ++ [45] ++ ld b ++ [9] ++ ld n) with ((ld a ++ 45 :: ld b) ++ 9 :: ld n) by (rewrite <- app_assoc; reflexivity).
    rewrite Vtext_Proofs.split_app, !Vtext_Proofs.split_none; [reflexivity|apply ld_no; lia|].
    intros I. apply in_app_or in I as [I|[I|I]]; [revert I; apply ld_no; lia|discriminate|revert I; apply ld_no; lia]. }
  pose proof (range_ld a b) as Y. destruct (ld_cons a) as (c & t & E & R). revert X.
  replace (ld a ++ [45] ++ ld b ++ [9] ++ ld n) with (c :: t ++ [45] ++ ld b ++ [9] ++ ld n) by (rewrite E; reflexivity).
  intros X. rewrite classify_other by exact R. cbv zeta. rewrite X. cbn [last]. rewrite blank_ld, Y, number_ld. reflexivity.
Qed.
Definition row_text (vs : list N) : list N := flat_map (fun v => ld v ++ [9]) vs.
Lemma classify_row vs : vs <> [] -> classify (row_text vs) = LRow (List.map (fun v => v mod 2 ^ 64) vs).
Proof.
  intros NE. assert (X : forall l, split 9 (row_text l) = List.map ld l ++ [[]]).
  { induction l as [|v l IH]; [reflexivity|]. cbn [row_text flat_map List.map]. rewrite <- app_assoc. cbn [app].
    rewrite Vtext_Proofs.split_app, Vtext_Proofs.split_none by (apply ld_no; lia). fold (row_text l). rewrite IH. reflexivity. }
  specialize (X vs). destruct vs as [|v vs]; [congruence|]. destruct (ld_cons v) as (c & t & E & R). revert X.
  cbn [row_text flat_map]. rewrite E. cbn [app]. intros X. rewrite classify_other by exact R. cbv zeta. rewrite X.
  rewrite last_last, removelast_last. cbn [blank]. f_equal. rewrite map_map. apply map_ext. intros u. apply number_ld.
Qed.
Lemma classify_test k : classify (chars "Testing K=" ++ ld k) = LTest (k mod 2 ^ 64).
Proof. rewrite <- number_ld. generalize (ld k). intros t. reflexivity. Qed.
Lemma classify_cost k : classify (chars "Cost: " ++ ld k) = LCost (k mod 2 ^ 64).
Proof. rewrite <- number_ld. generalize (ld k). intros t. reflexivity. Qed.

(** ** The matrix *)
Lemma for_text (h : N -> list N) (body : N -> list N -> mres (list N)) : forall n from t,
  (forall i t, from <= i < from + N.of_nat n -> body i t = MOk (t ++ h i)) ->
  m_for n from body t = MOk (t ++ flat_map (fun j => h (from + N.of_nat j)) (seq 0 n)).
Proof.
  induction n as [|n IH]; intros from t B; [cbn; rewrite app_nil_r; reflexivity|].
  cbn [m_for]. rewrite B by lia. cbn [m_bind]. rewrite IH by (intros; apply B; lia). f_equal. cbn [seq flat_map].
  rewrite <- app_assoc, N.add_0_r. f_equal. f_equal. rewrite <- seq_shift, !flat_map_concat_map, map_map. f_equal. apply map_ext.
  intros j. f_equal. lia.
Qed.
Definition matrix_lines (rows cols : N) (f : N -> N -> N) : list (list N) :=
  List.map (fun r => row_text (List.map (fun c => f (N.of_nat r) (N.of_nat c)) (seq 0 (N.to_nat cols)))) (seq 0 (N.to_nat rows)).
Lemma flat_map_map {A B C} (g : B -> list C) (f : A -> B) l : flat_map g (List.map f l) = flat_map (fun x => g (f x)) l.
Proof. rewrite !flat_map_concat_map, map_map. reflexivity. Qed.
Lemma matrix_text m rows cols f : holds m rows cols f -> matrix_print m = MOk (unlines (matrix_lines rows cols f)).
Proof.
  intros H. assert (R : m_rows m = rows) by apply H. assert (C : m_cols m = cols) by apply H. unfold matrix_print, unlines, matrix_lines.
  rewrite R, flat_map_map.
  rewrite (for_text (fun r => row_text (List.map (fun c => f r (N.of_nat c)) (seq 0 (N.to_nat cols))) ++ [10])); [reflexivity|].
  intros r t B. unfold print_row. rewrite C.
  rewrite (for_text (fun c => ld (f r c) ++ [9])).
  - cbn [m_bind]. unfold row_text. rewrite flat_map_map. reflexivity.
  - intros c u D. rewrite (Matrix_Proofs.get_ok m rows cols f r c H) by lia. reflexivity.
Qed.
Lemma matrix_read rows cols f : cols <> 0 -> List.map classify (matrix_lines rows cols f) = grid rows cols f.
Proof.
  intros Z. unfold matrix_lines, grid. rewrite map_map. apply map_ext. intros r. rewrite classify_row.
  - rewrite map_map. reflexivity.
  - destruct (N.to_nat cols) eqn:E; [lia|]. discriminate.
Qed.
Lemma row_line l : ~ In 10 (row_text l).
Proof.
  intros I. unfold row_text in I. apply in_flat_map in I as (v & _ & I). apply in_app_or in I as [I|[I|[]]]; [|discriminate].
  revert I. apply ld_no. lia.
Qed.

(** ** A run *)
Section RUN.
Variables (m : matrix) (verbose : bool) (period : N).

Lemma swap_falls : forall n p md s progress s' progress' returned,
  swap_loop m n p md s progress = POk (s', progress', returned) ->
  p_cost s' <= p_cost s /\
  (if returned then p_cost s' = 0 /\ progress' = false
   else if progress' then (progress = true /\ p_cost s' = p_cost s) \/ (p_cost s' <> 0 /\ p_cost s' < p_cost s)
   else progress = false /\ p_cost s' = p_cost s).
Proof.
  induction n as [|n IH]; intros p md s progress s' progress' returned E; cbn [swap_loop] in E.
  - injection E as <- <- <-. split; [lia|]. destruct progress; auto.
  - destruct (is_medoid m (p_medoids s) p) as [i|]; [|discriminate]. cbn [p_bind] in E. destruct i; [exact (IH _ _ _ _ _ _ _ E)|].
    destruct (total_cost m _) as [cost|]; [|discriminate]. cbn [p_bind] in E. destruct (cost <? p_cost s) eqn:L; cbn [p_cost] in E.
    + destruct (cost =? 0) eqn:Z.
      * injection E as <- <- <-. cbn [p_cost]. split; [lia|]. split; [lia|reflexivity].
      * apply IH in E as [A B]. cbn [p_cost] in *. split; [lia|]. destruct returned; [exact B|]. destruct progress'.
        -- right. destruct B as [[_ B]|B]; lia.
        -- destruct B; discriminate.
    + destruct (p_cost s =? 0) eqn:Z.
      * injection E as <- <- <-. split; [lia|]. split; [lia|reflexivity].
      * exact (IH _ _ _ _ _ _ _ E).
Qed.
Lemma medoid_falls : forall n md s progress s' go, medoid_loop m n md s progress = POk (s', go) ->
  p_cost s' <= p_cost s /\
  (if go : bool then (progress = true /\ p_cost s' = p_cost s) \/ (p_cost s' <> 0 /\ p_cost s' < p_cost s)
   else p_cost s' = 0 \/ (progress = false /\ p_cost s' = p_cost s)).
Proof.
  induction n as [|n IH]; intros md s progress s' go E; cbn [medoid_loop] in E.
  - injection E as <- <-. split; [lia|]. destruct progress; auto.
  - destruct (swap_loop _ _ _ _ _ _) as [[[s1 p1] r1]|] eqn:Q; [|discriminate]. cbn [p_bind] in E. apply swap_falls in Q as [A B].
    destruct r1.
    + injection E as <- <-. destruct B as [B ->]. auto.
    + apply IH in E as [C D]. split; [lia|]. destruct go.
      * destruct D as [[-> D]|D]; [|right; lia]. destruct B as [[B1 B2]|B]; [left; split; [exact B1|lia]|right; lia].
      * destruct D as [D|[-> D]]; [auto|]. destruct B as [-> B]. right. split; [reflexivity|lia].
Qed.
Lemma iteration_falls s s' go : pam_iteration m s = POk (s', go) ->
  if go : bool then p_cost s' <> 0 /\ p_cost s' < p_cost s else p_cost s' = 0 \/ p_cost s' = p_cost s.
Proof.
  intros E. apply medoid_falls in E as [A B]. destruct go; [destruct B as [[B _]|B]; [discriminate|exact B]|].
  destruct B as [B|[_ B]]; auto.
Qed.
Lemma log_same : forall fuel s, snd (log_loop m fuel s) = pam_loop m fuel s.
Proof.
  induction fuel as [|fuel IH]; intros s; [reflexivity|]. cbn [log_loop pam_loop].
  destruct (pam_iteration m s) as [[s' go]|]; [|reflexivity]. cbn [p_bind fst snd]. destruct go; [|reflexivity].
  rewrite <- IH. destruct (log_loop m fuel s'). reflexivity.
Qed.
Lemma log_falls : forall fuel s log s', log_loop m fuel s = (log, POk s') ->
  StronglySorted (fun a b => b < a) log /\ Forall (fun c => p_cost s' <= c /\ c <> 0) log /\ Forall (fun c => c < p_cost s) log
  /\ (p_cost s' <> 0 -> last log (p_cost s) = p_cost s') /\ p_cost s' <= p_cost s.
Proof.
  induction fuel as [|fuel IH]; intros s log s' E; cbn [log_loop] in E; [discriminate|].
  destruct (pam_iteration m s) as [[s1 go]|] eqn:Q; [|discriminate]. apply iteration_falls in Q. destruct go.
  - destruct (log_loop m fuel s1) as [l r] eqn:L. injection E as <- ->. destruct (IH _ _ _ L) as (A & B & C & D & F).
    split; [constructor; assumption|]. split; [constructor; [lia|assumption]|].
    split; [constructor; [lia|]; eapply Forall_impl; [|exact C]; cbn; intros; lia|]. split; [|lia].
    intros Z. rewrite <- (D Z). clear. destruct l as [|x l]; [reflexivity|]. cbn [last]. revert x. induction l as [|y l IH]; intros x; [reflexivity|].
    cbn [last] in *. apply IH.
  - injection E as <- <-. split; [constructor|]. split; [constructor|]. split; [constructor|]. split; [|lia]. cbn. intros Z. lia.
Qed.

Definition run_text (x : run) : list (list N) :=
  let '(k, log, (cost, ms)) := x in
  (chars "Testing K=" ++ ld k) :: (if verbose then List.map ld log else [])
  ++ [chars "Cost: " ++ ld cost; chars "Medoids:"]
  ++ List.map (fun y => ld (fst (fst y)) ++ [45] ++ ld (snd (fst y)) ++ [9] ++ ld (snd y)) ms ++ [[]].
Lemma run_read x : List.map classify (run_text x) = run_lines verbose x.
Proof.
  destruct x as [[k log] [cost ms]]. unfold run_text, run_lines. cbn [List.map]. rewrite classify_test. f_equal.
  rewrite map_app. f_equal; [destruct verbose; [rewrite map_map; apply map_ext; intros c; apply classify_ld|reflexivity]|].
  cbn [app List.map]. rewrite classify_cost. f_equal. f_equal. rewrite map_app. f_equal.
  rewrite map_map. apply map_ext. intros [[a b] n]. apply classify_medoid.
Qed.
Lemma run_line x : Forall (fun l => ~ In 10 l) (run_text x).
Proof.
  destruct x as [[k log] [cost ms]]. unfold run_text.
  assert (T : forall t v, ~ In 10 t -> ~ In 10 (t ++ ld v)).
  { intros t v A I. apply in_app_or in I as [I|I]; [exact (A I)|revert I; apply ld_no; lia]. }
  assert (P : forall t, existsb (N.eqb 10) t = false -> ~ In 10 t).
  { intros t A I. assert (existsb (N.eqb 10) t = true) by (apply existsb_exists; exists 10; split; [exact I|reflexivity]). congruence. }
  constructor; [apply T, P; reflexivity|]. apply Forall_app. split.
  { destruct verbose; [|constructor]. apply Forall_map, Forall_forall. intros v _. apply ld_no. lia. }
  constructor; [apply T, P; reflexivity|]. constructor; [apply P; reflexivity|]. apply Forall_app. split; [|constructor; [intros []|constructor]].
  apply Forall_map, Forall_forall. intros [[a b] n] _. cbn [fst snd]. rewrite app_assoc, app_assoc, app_assoc. apply T.
  intros I. apply in_app_or in I as [I|[I|[]]]; [|discriminate]. revert I. apply T.
  intros I. apply in_app_or in I as [I|[I|[]]]; [|discriminate]. revert I. apply ld_no. lia.
Qed.
Lemma one_good fuel k r : do_one_pam m fuel k period = POk r ->
  exists log, falls (k, log, r) /\ one_text m verbose period fuel k = (unlines (run_text (k, log, r)), POk (fst r)).
Proof.
  unfold do_one_pam, one_text. destruct (pam_initialise m k) as [[s|]|]; cbn [p_bind]; try discriminate.
  rewrite <- log_same. destruct (log_loop m fuel s) as [log [s'|]] eqn:L; cbn [snd p_bind]; try discriminate.
  destruct (print_medoids m (p_medoids s') period) as [ms|]; cbn [p_bind]; try discriminate.
  intros E. injection E as <-. exists log. apply log_falls in L as (A & B & _ & D & _). split.
  - split; [exact A|]. split; [exact B|]. intros Z NE. rewrite <- (D Z). clear -NE. destruct log as [|x l]; [congruence|]. clear.
    revert x. induction l as [|y l IH]; intros x; [reflexivity|]. cbn [last] in *. apply IH.
  - cbn [fst]. f_equal. unfold run_text. cbn [unlines flat_map]. fold (unlines ((if verbose then List.map ld log else [])
      ++ [chars "Cost: " ++ ld (p_cost s'); chars "Medoids:"]
      ++ List.map (fun y => ld (fst (fst y)) ++ [45] ++ ld (snd (fst y)) ++ [9] ++ ld (snd y)) ms ++ [[]])).
    rewrite !unlines_app. rewrite <- !app_assoc. f_equal. f_equal. f_equal. f_equal.
    { destruct verbose; [|reflexivity]. unfold unlines. rewrite flat_map_map. reflexivity. }
    assert (M : flat_map print_medoid ms
      = unlines (List.map (fun y => ld (fst (fst y)) ++ [45] ++ ld (snd (fst y)) ++ [9] ++ ld (snd y)) ms)).
    { unfold unlines. rewrite flat_map_map. apply flat_map_ext. intros [[a b] n]. unfold print_medoid. cbn [fst snd]. rewrite <- !app_assoc. reflexivity. }
    rewrite M. generalize (unlines (List.map (fun y => ld (fst (fst y)) ++ [45] ++ ld (snd (fst y)) ++ [9] ++ ld (snd y)) ms)). intros t.
    unfold unlines. cbn [flat_map app]. rewrite <- !app_assoc. reflexivity.
Qed.
Definition broken_text (k : N) (log : list N) (cost : option N) : list (list N) :=
  (chars "Testing K=" ++ ld k) :: (if verbose then List.map ld log else [])
  ++ match cost with Some c => [chars "Cost: " ++ ld c; chars "Medoids:"] | None => [] end.
Lemma broken_read k log cost : List.map classify (broken_text k log cost) = broken_lines verbose k log cost.
Proof.
  unfold broken_text, broken_lines. cbn [List.map]. rewrite classify_test. f_equal.
  rewrite map_app. f_equal; [destruct verbose; [rewrite map_map; apply map_ext; intros c; apply classify_ld|reflexivity]|].
  destruct cost as [c|]; [|reflexivity]. cbn [app List.map]. rewrite classify_cost. reflexivity.
Qed.
Lemma broken_line k log cost : Forall (fun l => ~ In 10 l) (broken_text k log cost).
Proof.
  assert (T : forall t v, ~ In 10 t -> ~ In 10 (t ++ ld v)).
  { intros t v A I. apply in_app_or in I as [I|I]; [exact (A I)|revert I; apply ld_no; lia]. }
  assert (P : forall t, existsb (N.eqb 10) t = false -> ~ In 10 t).
  { intros t A I. assert (existsb (N.eqb 10) t = true) by (apply existsb_exists; exists 10; split; [exact I|reflexivity]). congruence. }
  unfold broken_text. constructor; [apply T, P; reflexivity|]. apply Forall_app. split.
  { destruct verbose; [|constructor]. apply Forall_map, Forall_forall. intros v _. apply ld_no. lia. }
  destruct cost as [c|]; [|constructor]. constructor; [apply T, P; reflexivity|]. constructor; [apply P; reflexivity|constructor].
Qed.
Lemma one_stop fuel k e : do_one_pam m fuel k period = PErr e ->
  exists log cost, one_text m verbose period fuel k = (unlines (broken_text k log cost), PErr e).
Proof.
  assert (U : forall log cost, unlines (broken_text k log cost) = (chars "Testing K=" ++ ld k ++ [10])
    ++ (if verbose then flat_map (fun c => ld c ++ [10]) log else [])
    ++ match cost with Some c => chars "Cost: " ++ ld c ++ [10] ++ chars "Medoids:" ++ [10] | None => [] end).
  { intros log cost. unfold broken_text. rewrite unlines_cons, unlines_app, <- (app_assoc (chars "Testing K=")). f_equal. f_equal.
    - destruct verbose; [|reflexivity]. unfold unlines. rewrite flat_map_map. reflexivity.
    - destruct cost; [|reflexivity]. unfold unlines. cbn [flat_map app]. rewrite <- !app_assoc. reflexivity. }
  unfold do_one_pam, one_text. destruct (pam_initialise m k) as [[s|]|]; cbn [p_bind].
  - rewrite <- log_same. destruct (log_loop m fuel s) as [log [s'|]]; cbn [snd p_bind].
    + destruct (print_medoids m (p_medoids s') period) as [ms|]; cbn [p_bind]; [discriminate|]. intros X. injection X as <-.
      exists log, (Some (p_cost s')). rewrite U, <- !app_assoc. reflexivity.
    + intros X. injection X as <-. exists log, None. rewrite U, app_nil_r. reflexivity.
  - intros X. injection X as <-. exists [], None. rewrite U, app_nil_r. destruct verbose; cbn [flat_map]; rewrite app_nil_r; reflexivity.
  - intros X. injection X as <-. exists [], None. rewrite U, app_nil_r. destruct verbose; cbn [flat_map]; rewrite app_nil_r; reflexivity.
Qed.
Lemma sweep_good fuel : forall n k rs, sweep m fuel n k period = POk rs ->
  exists runs : list run, List.map snd runs = rs /\ Forall falls runs
  /\ List.map (fun x => fst (fst x)) runs = List.map (fun i => k + N.of_nat i) (seq 0 (List.length rs))
  /\ sweep_text m verbose period fuel n k = (unlines (flat_map run_text runs), None).
Proof.
  induction n as [|n IH]; intros k rs E; cbn [sweep] in E.
  - injection E as <-. exists []. repeat split. constructor.
  - destruct (do_one_pam m fuel k period) as [r|] eqn:Q; cbn [p_bind] in E; [|discriminate].
    apply one_good in Q as (log & F & T). cbn [sweep_text]. rewrite T. destruct (fst r =? 0).
    + injection E as <-. exists [(k, log, r)]. split; [reflexivity|]. split; [constructor; [exact F|constructor]|].
      split; [cbn; f_equal; lia|]. cbn [flat_map]. rewrite app_nil_r. reflexivity.
    + destruct (sweep m fuel n (k + 1) period) as [rs'|] eqn:W; cbn [p_bind] in E; [|discriminate]. injection E as <-.
      destruct (IH _ _ W) as (runs & A & B & C & D). exists ((k, log, r) :: runs). rewrite D. split; [cbn; rewrite A; reflexivity|].
      split; [constructor; assumption|]. split.
      * cbn [List.map List.length seq fst]. rewrite C, <- seq_shift, map_map. f_equal; [lia|]. apply map_ext. intros i. lia.
      * cbn [flat_map]. rewrite unlines_app. reflexivity.
Qed.
Lemma sweep_stop fuel e : forall n k, sweep m fuel n k period = PErr e ->
  exists (runs : list run) log cost, Forall falls runs /\ Forall (fun x => fst (snd x) <> 0) runs
  /\ List.map (fun x => fst (fst x)) runs = List.map (fun i => k + N.of_nat i) (seq 0 (List.length runs))
  /\ sweep_text m verbose period fuel n k
     = (unlines (flat_map run_text runs ++ broken_text (k + N.of_nat (List.length runs)) log cost), Some e).
Proof.
  induction n as [|n IH]; intros k E; cbn [sweep] in E; [discriminate|]. cbn [sweep_text].
  destruct (do_one_pam m fuel k period) as [r|e'] eqn:Q; cbn [p_bind] in E.
  - apply one_good in Q as (lg & F & T). rewrite T. destruct (fst r =? 0) eqn:Z; [discriminate|].
    destruct (sweep m fuel n (k + 1) period) eqn:W; cbn [p_bind] in E; [discriminate|]. injection E as ->.
    destruct (IH _ W) as (runs & log & cost & A & B & C & D). exists ((k, lg, r) :: runs), log, cost. rewrite D.
    split; [constructor; assumption|]. split; [constructor; [cbn; lia|assumption]|]. split.
    + cbn [List.map List.length seq fst]. rewrite C, <- seq_shift, map_map. f_equal; [lia|]. apply map_ext. intros i. lia.
    + cbn [flat_map List.length]. rewrite <- app_assoc, (unlines_app (run_text (k, lg, r))).
      replace (k + 1 + N.of_nat (List.length runs)) with (k + N.of_nat (S (List.length runs))) by lia. reflexivity.
  - injection E as ->. apply one_stop in Q as (log & cost & T). exists [], log, cost. rewrite T.
    repeat split; try constructor. cbn [flat_map app List.length]. rewrite N.add_0_r. reflexivity.
Qed.
End RUN.

Lemma texts_read verbose (runs : list run) : List.map classify (flat_map (run_text verbose) runs) = flat_map (run_lines verbose) runs.
Proof. induction runs as [|x runs IH]; [reflexivity|]. cbn [flat_map]. rewrite map_app, run_read, IH. reflexivity. Qed.
Lemma texts_lines verbose (runs : list run) : Forall (fun l => ~ In 10 l) (flat_map (run_text verbose) runs).
Proof. induction runs as [|x runs IH]; [constructor|]. cbn [flat_map]. apply Forall_app. split; [apply run_line|exact IH]. Qed.

Lemma cluster_good m verbose period fuel my_k rows cols f rs : holds m rows cols f -> cols <> 0 ->
  cluster m fuel my_k period = POk rs ->
  exists runs : list run, List.map snd runs = rs /\ Forall falls runs
  /\ List.map (fun x => fst (fst x)) runs = (if my_k =? 0 then List.map (fun i => 1 + N.of_nat i) (seq 0 (List.length rs)) else [my_k])
  /\ snd (cluster_text m verbose period fuel my_k) = None
  /\ blines (fst (cluster_text m verbose period fuel my_k))
     = (if verbose then LMatrix :: grid rows cols f else []) ++ flat_map (run_lines verbose) runs.
Proof.
  intros H C E. assert (X : exists runs : list run, List.map snd runs = rs /\ Forall falls runs
    /\ List.map (fun x => fst (fst x)) runs = (if my_k =? 0 then List.map (fun i => 1 + N.of_nat i) (seq 0 (List.length rs)) else [my_k])
    /\ (if negb (my_k =? 0) then
        match one_text m verbose period fuel my_k with (t, PErr e) => (t, Some e) | (t, POk _) => (t, None) end
      else sweep_text m verbose period fuel 32 1) = (unlines (flat_map (run_text verbose) runs), None)).
  { unfold cluster in E. destruct (my_k =? 0); cbn [negb] in *; [exact (sweep_good m verbose period fuel _ _ _ E)|].
    destruct (do_one_pam m fuel my_k period) as [r|] eqn:Q; cbn [p_bind] in E; [|discriminate]. injection E as <-.
    destruct (one_good m verbose period _ _ _ Q) as (log & F & T). exists [(my_k, log, r)]. rewrite T.
    split; [reflexivity|]. split; [constructor; [exact F|constructor]|]. split; [reflexivity|]. cbn [flat_map]. rewrite app_nil_r. reflexivity. }
  destruct X as (runs & A & B & D & T). exists runs. split; [exact A|]. split; [exact B|]. split; [exact D|].
  unfold cluster_text. rewrite T. destruct verbose.
  - rewrite (matrix_text _ _ _ _ H). cbn [fst snd]. split; [reflexivity|].
    assert (S0 : chars "Matrix:" ++ [10] ++ unlines (matrix_lines rows cols f) ++ unlines (flat_map (run_text true) runs)
      = unlines (chars "Matrix:" :: matrix_lines rows cols f ++ flat_map (run_text true) runs)) by (cbn [unlines flat_map]; rewrite <- unlines_app, <- app_assoc; reflexivity).
    unfold blines. rewrite S0, lines_back.
    + cbn [List.map]. rewrite map_app, matrix_read by exact C. rewrite texts_read. reflexivity.
    + constructor; [cbn; intuition discriminate|]. apply Forall_app. split; [|apply texts_lines].
      unfold matrix_lines. apply Forall_map, Forall_forall. intros. apply row_line.
  - split; [reflexivity|]. unfold blines. cbn [fst]. rewrite lines_back by apply texts_lines. rewrite texts_read. reflexivity.
Qed.
Lemma cluster_stop m verbose period fuel my_k rows cols f e : holds m rows cols f -> cols <> 0 ->
  cluster m fuel my_k period = PErr e ->
  exists (runs : list run) log cost, Forall falls runs /\ Forall (fun x => fst (snd x) <> 0) runs
  /\ List.map (fun x => fst (fst x)) runs = (if my_k =? 0 then List.map (fun i => 1 + N.of_nat i) (seq 0 (List.length runs)) else [])
  /\ snd (cluster_text m verbose period fuel my_k) = Some e
  /\ blines (fst (cluster_text m verbose period fuel my_k))
     = (if verbose then LMatrix :: grid rows cols f else []) ++ flat_map (run_lines verbose) runs
       ++ broken_lines verbose (if my_k =? 0 then 1 + N.of_nat (List.length runs) else my_k) log cost.
Proof.
  intros H C E. assert (X : exists (runs : list run) log cost, Forall falls runs /\ Forall (fun x => fst (snd x) <> 0) runs
    /\ List.map (fun x => fst (fst x)) runs = (if my_k =? 0 then List.map (fun i => 1 + N.of_nat i) (seq 0 (List.length runs)) else [])
    /\ (if negb (my_k =? 0) then
        match one_text m verbose period fuel my_k with (t, PErr e) => (t, Some e) | (t, POk _) => (t, None) end
      else sweep_text m verbose period fuel 32 1)
      = (unlines (flat_map (run_text verbose) runs ++ broken_text verbose (if my_k =? 0 then 1 + N.of_nat (List.length runs) else my_k) log cost), Some e)).
  { unfold cluster in E. destruct (my_k =? 0); cbn [negb] in *; [exact (sweep_stop m verbose period fuel _ _ _ E)|].
    destruct (do_one_pam m fuel my_k period) as [r|] eqn:Q; cbn [p_bind] in E; [discriminate|]. injection E as <-.
    destruct (one_stop m verbose period _ _ _ Q) as (log & cost & T). exists [], log, cost. rewrite T.
    repeat split; constructor. }
  destruct X as (runs & log & cost & A & B & D & T). exists runs, log, cost. split; [exact A|]. split; [exact B|]. split; [exact D|].
  unfold cluster_text. rewrite T.
  assert (F : Forall (fun l => ~ In 10 l) (flat_map (run_text verbose) runs ++ broken_text verbose (if my_k =? 0 then 1 + N.of_nat (List.length runs) else my_k) log cost))
    by (apply Forall_app; split; [apply texts_lines|apply broken_line]).
  destruct verbose.
  - rewrite (matrix_text _ _ _ _ H). cbn [fst snd]. split; [reflexivity|].
    generalize dependent (if my_k =? 0 then 1 + N.of_nat (List.length runs) else my_k). intros k _ F.
    assert (S0 : chars "Matrix:" ++ [10] ++ unlines (matrix_lines rows cols f) ++ unlines (flat_map (run_text true) runs ++ broken_text true k log cost)
      = unlines (chars "Matrix:" :: matrix_lines rows cols f ++ flat_map (run_text true) runs ++ broken_text true k log cost))
      by (cbn [unlines flat_map]; rewrite <- unlines_app, <- app_assoc; reflexivity).
    unfold blines. rewrite S0, lines_back.
    + cbn [List.map]. rewrite !map_app, matrix_read by exact C. rewrite texts_read, broken_read. reflexivity.
    + constructor; [cbn; intuition discriminate|]. apply Forall_app. split; [|exact F].
      unfold matrix_lines. apply Forall_map, Forall_forall. intros. apply row_line.
  - split; [reflexivity|]. unfold blines. cbn [fst]. rewrite lines_back by exact F. rewrite map_app, texts_read, broken_read. reflexivity.
Qed.

Section TOOL.
Variables (junk : nat -> N) (walk : list obj -> list obj) (rows0 cols0 period : N) (coin : N -> N -> bool) (dims my_k : N)
  (verbose : bool) (fuel : nat) (recs : list rec).
Theorem text m rows cols f rs :
  vectors junk walk rows0 cols0 period coin dims recs = MOk m -> holds m rows cols f -> cols <> 0 ->
  tool junk walk rows0 cols0 period coin dims my_k fuel recs = POk rs ->
  exists runs : list run, List.map snd runs = rs /\ Forall falls runs
  /\ List.map (fun x => fst (fst x)) runs = (if my_k =? 0 then List.map (fun i => 1 + N.of_nat i) (seq 0 (List.length rs)) else [my_k])
  /\ snd (tool_text junk walk rows0 cols0 period coin dims my_k verbose fuel recs) = None
  /\ blines (fst (tool_text junk walk rows0 cols0 period coin dims my_k verbose fuel recs))
     = (if verbose then LMatrix :: grid rows cols f else []) ++ flat_map (run_lines verbose) runs.
Proof. unfold tool, tool_text. intros ->. apply cluster_good. Qed.
Theorem stop m rows cols f e :
  vectors junk walk rows0 cols0 period coin dims recs = MOk m -> holds m rows cols f -> cols <> 0 ->
  tool junk walk rows0 cols0 period coin dims my_k fuel recs = PErr e ->
  exists (runs : list run) log cost, Forall falls runs /\ Forall (fun x => fst (snd x) <> 0) runs
  /\ List.map (fun x => fst (fst x)) runs = (if my_k =? 0 then List.map (fun i => 1 + N.of_nat i) (seq 0 (List.length runs)) else [])
  /\ snd (tool_text junk walk rows0 cols0 period coin dims my_k verbose fuel recs) = Some e
  /\ blines (fst (tool_text junk walk rows0 cols0 period coin dims my_k verbose fuel recs))
     = (if verbose then LMatrix :: grid rows cols f else []) ++ flat_map (run_lines verbose) runs
       ++ broken_lines verbose (if my_k =? 0 then 1 + N.of_nat (List.length runs) else my_k) log cost.
Proof. unfold tool, tool_text. intros ->. apply cluster_stop. Qed.
End TOOL.

Theorem trace_text : forall junk walk rows0 cols0 period,
  (forall l, Permutation (walk l) l) -> period < 2 ^ 64 -> rows0 <> 0 -> cols0 <> 0 ->
  forall coin my_k fuel recs bs rest rs, trace recs bs rest -> Forall (fun r => fst r <> MINUS1) recs ->
  let P := N.max period 1 in
  let ks := timed 0 bs in let I := N.of_nat (List.length recs) / P in
  grows_slowly P cols0 ks I -> fits rows0 cols0 ks I -> I <> 0 ->
  tool junk walk rows0 cols0 period coin 0 my_k fuel recs = POk rs ->
  exists runs : list run, List.map snd runs = rs
  /\ blines (fst (tool_text junk walk rows0 cols0 period coin 0 my_k true fuel recs))
     = LMatrix :: grid I (N.of_nat (List.length (firsts (List.map k_addr ks))) + 1) (vector P ks) ++ flat_map (run_lines true) runs.
Proof.
  intros junk walk rows0 cols0 period W Pd R0 C0 coin my_k fuel recs bs rest rs T M P ks I G F Z E.
  destruct (Bbv_Proofs3.t_vectors junk walk rows0 cols0 period W Pd R0 C0 coin recs bs rest T M G F Z) as (m & V & H).
  destruct (text junk walk rows0 cols0 period coin 0 my_k true fuel recs m _ _ _ rs V H ltac:(lia) E) as (runs & A & _ & _ & _ & B).
  exists runs. split; [exact A|exact B].
Qed.
