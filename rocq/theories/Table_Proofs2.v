(** The printed tables. *)
Require Import NArith ZArith List Bool String Permutation Lia ZifyBool ZifyN ZifyNat.
Require Import Verif.Stats_Model Verif.Stats_Spec Verif.Stats_Proofs Verif.Stats_Proofs2 Verif.Opcode_Table Verif.Opcode_Spec.
Require Import Verif.Names_Model Verif.Tools_Spec.
Require Import Verif.Table_Model Verif.Table_Spec Verif.Table_Proofs.
Require Verif.Tlbdump_Model Verif.Tlbdump_Spec Verif.Bb_Model Verif.Bb_Spec Verif.Bb_Proofs Verif.Bb_Proofs2.
Import ListNotations.
Local Open Scope N_scope.
Local Open Scope list_scope.

Notation dec := Tlbdump_Model.dec.
Notation dec02 := Tlbdump_Model.dec02.
Notation hex16 := Tlbdump_Model.hex16.
Notation lbound := 2147483648.

Lemma chars_codes s : chars s = Tlbdump_Spec.codes s.
Proof. induction s as [|c s IH]; [reflexivity|]. cbn. rewrite IH. reflexivity. Qed.
Lemma chars_length s : List.length (chars s) = String.length s.
Proof. induction s as [|c s IH]; [reflexivity|]. cbn. rewrite IH. reflexivity. Qed.
Lemma right_label w s : right w (chars s) = label w s.
Proof. unfold right, label. rewrite chars_length, chars_codes. reflexivity. Qed.
Lemma li_dec n : n < 2 ^ 63 -> li n = dec n.
Proof. intros H. unfold li. apply N.ltb_lt in H. rewrite H. reflexivity. Qed.
Lemma spaced_dec n : n < 2 ^ 63 -> spaced n = Tlbdump_Spec.codes " " ++ dec n.
Proof. intros H. unfold spaced. pose proof (li_dec n H) as E. apply N.ltb_lt in H. rewrite H, E. reflexivity. Qed.

Lemma fixed_hundredths x : fixed x = hundredths dec (to_even (100 * fst x) (snd x)).
Proof. reflexivity. Qed.
Lemma share_percent nan n d : (d = 0 -> n = 0) -> percent dec nan n d (share nan n d).
Proof.
  intros H. unfold percent, share. destruct (N.eqb_spec d 0) as [E|E]; [rewrite (H E); split; reflexivity|].
  rewrite fixed_hundredths. eexists. split; [apply share_close; lia|]. f_equal.
Qed.
Lemma share0_percent nan n d : percent0 dec nan n d (share0 nan n d).
Proof.
  unfold percent0, share0. destruct (N.eqb_spec d 0) as [E|E]; [reflexivity|]. apply share_percent. lia.
Qed.
Lemma fuzzy_warning m n : n < 2 ^ 31 -> m <= n -> warning dec m n (fuzzy m n).
Proof.
  intros B H. unfold warning, fuzzy. destruct (N.eqb_spec n 0) as [E|E].
  - assert (m = 0) by lia. subst. cbn [N.eqb]. repeat split; [intros X; lia|left; reflexivity].
  - set (f := float (over (times hundred (double m)) (double n))).
    pose proof (fun q => fuzzy_quiet m n ltac:(lia) B q ltac:(lia)) as Q. pose proof (fun q => fuzzy_loud m n q ltac:(lia)) as L.
    destruct (float_share_near m n ltac:(lia)) as [F P]. cbv zeta in Q, L, F, P. fold f in Q, L, F, P.
    destruct (N.ltb_spec (10 * snd f) (fst f)) as [C|C].
    + split; [intros X; specialize (Q X); lia|]. split; [intros _; discriminate|]. right.
      exists (to_even (100 * fst f) (snd f)). split; [apply fixed_close; [lia|exact P|exact F]|].
      clearbody f. rewrite fixed_hundredths, !chars_codes. reflexivity.
    + split; [reflexivity|]. split; [intros X; specialize (L X); lia|left; reflexivity].
Qed.

Lemma events_count f : forall xs, events (newest f) (rev xs) = N.of_nat (List.length (filter f xs)).
Proof.
  intros xs. rewrite <- (rev_involutive xs) at 2. generalize (rev xs) as p. clear xs.
  induction p as [|x p IH]; [reflexivity|]. cbn [events newest rev]. rewrite IH, filter_app, app_length. cbn [filter].
  destruct (f x); cbn [List.length]; lia.
Qed.

Lemma ordered_nodup_listing counts n (f : nat -> N) r : complete counts r -> List.length counts = n ->
  (forall k, (k < n)%nat -> nth_error counts k = Some (f k)) -> listing n f r.
Proof.
  intros (C1 & C2 & C3) L H. split; [|split; assumption]. intros k c. rewrite C1. split.
  - intros [E Z]. assert (K : (k < n)%nat) by (rewrite <- L; apply nth_error_Some; congruence).
    rewrite (H k K) in E. injection E as E. auto.
  - intros (K & E & Z). rewrite (H k K), E. auto.
Qed.
Lemma small_counts counts n (f : nat -> N) : List.length counts = n ->
  (forall k, (k < n)%nat -> nth_error counts k = Some (f k)) -> (forall k, f k < 2 ^ 31) -> Forall (fun c => c < 2 ^ 31) counts.
Proof.
  intros L H B. apply Forall_forall. intros c I. apply In_nth_error in I as [k E].
  assert (K : (k < n)%nat) by (rewrite <- L; apply nth_error_Some; congruence). rewrite (H k K) in E. injection E as <-. apply B.
Qed.
Lemma tab_listing qs l n f g p : sorter qs -> N.of_nat (List.length p) < 2 ^ 31 -> tab l n f g p ->
  listing n (fun k => events (f k) p) (Stats_Model.report qs l) /\ report_until qs l = Stats_Model.report qs l.
Proof.
  intros Q B (L & T & _).
  assert (E : forall k, events (f k) p < 2 ^ 31) by (intros k; pose proof (events_le (f k) p); lia).
  assert (H : forall k, (k < n)%nat -> nth_error l k = Some (events (f k) p)).
  { intros k K. rewrite (T k K). f_equal. apply N.mod_small. specialize (E k). change (2 ^ 64) with (2 ^ 31 * 2 ^ 33).
    change (2 ^ 33) with 8589934592. lia. }
  destruct (report_ok qs l Q (small_counts _ _ _ L H E)) as [C U]. split; [|exact U].
  eapply ordered_nodup_listing; eassumption.
Qed.
Lemma rows_named names r : (forall k c, In (k, c) r -> c < 2 ^ 63) -> rows names r = named dec names r.
Proof.
  intros H. unfold rows, named. induction r as [|[k c] r IH]; [reflexivity|]. cbn [flat_map fst snd].
  rewrite IH by (intros k' c' X; apply (H k' c'); right; exact X).
  rewrite li_dec by (apply (H k c); left; reflexivity). rewrite chars_codes. reflexivity.
Qed.
Lemma part_portion i w s n t o : n < 2 ^ 63 ->
  part (chars i) w (chars s) n t (chars o) = portion dec i w s n t o.
Proof. intros H. unfold part, portion. rewrite right_label, li_dec by exact H. rewrite !chars_codes. reflexivity. Qed.

Lemma listing_small p n f r : N.of_nat (List.length p) < 2 ^ 31 -> listing n (fun k => events (f k) p) r ->
  forall k c, In (k, c) r -> c < 2 ^ 63.
Proof.
  intros B (H & _) k c I. apply H in I as (_ & <- & _). pose proof (events_le (f k) p).
  change (2 ^ 63) with (2 ^ 31 * 2 ^ 32). change (2 ^ 32) with 4294967296. lia.
Qed.

Lemma stats_ok nan qs xs s : sorter qs -> N.of_nat (List.length xs) < 2 ^ 31 -> rel (rev xs) s ->
  stats_table dec nan xs (print_stats nan qs s).
Proof.
  intros Q B R. set (p := rev xs) in *.
  assert (Bp : N.of_nat (List.length p) < 2 ^ 31) by (unfold p; rewrite rev_length; exact B).
  assert (SM : forall n, n < 2 ^ 32 -> n mod 2 ^ 64 = n)
    by (intros n H; apply N.mod_small; change (2 ^ 64) with (2 ^ 32 * 2 ^ 32); change (2 ^ 32) with 4294967296 in *; lia).
  assert (SF : forall f, events f p < 2 ^ 32) by (intros f; pose proof (events_le f p); change (2 ^ 32) with 4294967296; change (2 ^ 31) with 2147483648 in *; lia).
  assert (SI : idle p < 2 ^ 32).
  { pose proof (idle_le p). pose proof (last_at_le time_read p). pose proof (last_at_le nop31 p).
    change (2 ^ 32) with 4294967296; change (2 ^ 31) with 2147483648 in *; lia. }
  assert (SL : forall n, n < 2 ^ 32 -> n < 2 ^ 63)
    by (intros n H; change (2 ^ 63) with (2 ^ 31 * 2 ^ 32); change (2 ^ 31) with 2147483648; lia).
  destruct (tab_listing qs _ _ _ _ p Q Bp (e_exc _ _ R)) as [L1 _].
  destruct (tab_listing qs _ _ _ _ p Q Bp (e_sys _ _ R)) as [L2 U2].
  destruct (tab_listing qs _ _ _ _ p Q Bp (e_opc _ _ R)) as [L3 _].
  destruct (tab_listing qs _ _ _ _ p Q Bp (e_hc _ _ R)) as [L4 _].
  pose proof (events_le other_switch p) as O1.
  assert (O2 : events other_switch p <= events (newest switch) p).
  { clear. induction p as [|x p IH]; cbn [events]; [lia|]. unfold other_switch at 1. cbn [newest].
    destruct (switch x); cbn [andb]; [destruct (negb _); lia|lia]. }
  unfold print_stats. rewrite U2.
  rewrite (rows_named _ _ (listing_small _ _ _ _ Bp L1)), (rows_named _ _ (listing_small _ _ _ _ Bp L2)).
  rewrite (rows_named _ _ (listing_small _ _ _ _ Bp L3)), (rows_named _ _ (listing_small _ _ _ _ Bp L4)).
  rewrite (e_total _ _ R), (e_system _ _ R), (e_opal _ _ R), (e_user _ _ R), (e_bin _ _ R), (e_lib _ _ R), (e_idle _ _ R).
  rewrite (e_ctx _ _ R), (e_ctx_mult _ _ R), (e_excn _ _ R), (e_sysn _ _ R), (e_opcn _ _ R), (e_hcn _ _ R).
  assert (T32 : N.of_nat (List.length p) < 2 ^ 32) by (change (2 ^ 32) with 4294967296; change (2 ^ 31) with 2147483648 in Bp; lia).
  rewrite !SM by (exact T32 || apply SF || exact SI).
  rewrite !part_portion by (apply SL; apply SF || exact SI).
  rewrite !li_dec by (apply SL; apply SF || exact T32).
  assert (EC : forall f, N.of_nat (List.length (filter f xs)) = events (newest f) p) by (intros f; symmetry; apply events_count).
  assert (ET : N.of_nat (List.length xs) = N.of_nat (List.length p)) by (unfold p; rewrite rev_length; reflexivity).
  unfold stats_table. cbv zeta. fold p. rewrite ET, !EC.
  pose proof (events_le (newest kernel) p) as K1. pose proof (events_le (newest opal) p) as K2. pose proof (events_le (newest user) p) as K3.
  do 11 eexists.
  split; [apply share_percent; intros; lia|]. split; [apply share0_percent|].
  split; [apply share_percent; intros; lia|]. split; [apply share_percent; intros; lia|].
  split; [apply share0_percent|]. split; [apply share0_percent|].
  split; [apply (fuzzy_warning (events other_switch p) (events (newest switch) p)); [pose proof (events_le (newest switch) p); lia|exact O2]|].
  split.
  { destruct L1 as (A1 & A2 & A3). split; [|split; [exact A2|exact A3]]. intros k c. rewrite A1, EC. tauto. }
  split; [exact L2|]. split; [exact L3|]. split; [exact L4|].
  rewrite !chars_codes. unfold eol, newline, left, column.
  change (right 16 (Tlbdump_Spec.codes "Total")) with (Tlbdump_Spec.codes "Total           ").
  reflexivity.
Qed.

(** ** The mix *)
Lemma filter_length_le {A} (f : A -> bool) l : (List.length (filter f l) <= List.length l)%nat.
Proof. induction l as [|a l IH]; [cbn; lia|]. cbn [filter]. destruct (f a); cbn [List.length]; lia. Qed.
Lemma nth_firstn {A} : forall n k (l : list A), (k < n)%nat -> nth_error (firstn n l) k = nth_error l k.
Proof. induction n as [|n IH]; intros k l H; [lia|]. destruct l as [|a l], k as [|k]; try reflexivity. cbn. apply IH. lia. Qed.
Lemma mix_ok nan qs xs x total : sorter qs -> N.of_nat (List.length xs) < 2 ^ 31 -> total = N.of_nat (List.length xs) ->
  (forall k, (k < List.length opcodes)%nat -> nth_error (x_count x) k =
        Some (N.of_nat (List.length (filter (fun w => match first_hit dialect (removelast ppc_opcodes) w with
                                                 | Some j => Nat.eqb k j | None => false end) (List.map snd xs))) mod 2 ^ 64)) ->
  x_unknown x = N.of_nat (List.length (filter (fun w => match mnemonic w with
                                                      | Some _ => false | None => true end) (List.map snd xs))) mod 2 ^ 64 ->
  mix_table dec nan xs (print_imix nan qs total x).
Proof.
  intros Q B -> H U. set (n := List.length opcodes) in *. set (ws := List.map snd xs) in *.
  assert (Bw : (List.length ws = List.length xs)%nat) by apply map_length.
  set (count := fun f : N -> bool => N.of_nat (List.length (filter f ws))) in *.
  assert (CB : forall f, count f < 2 ^ 31) by (intros f; unfold count; pose proof (filter_length_le f ws); lia).
  assert (SM : forall m, m < 2 ^ 31 -> m mod 2 ^ 64 = m).
  { intros m M. apply N.mod_small. change (2 ^ 64) with (2 ^ 31 * 2 ^ 33). change (2 ^ 33) with 8589934592. lia. }
  assert (SL : forall m, m < 2 ^ 31 -> m < 2 ^ 63).
  { intros m M. change (2 ^ 63) with (2 ^ 31 * 2 ^ 32). change (2 ^ 32) with 4294967296. lia. }
  set (f := fun k => count (fun w => match entry_of w with Some j => Nat.eqb k j | None => false end)).
  assert (H' : forall k, (k < n)%nat -> nth_error (firstn n (x_count x)) k = Some (f k)).
  { intros k K. rewrite nth_firstn by exact K. rewrite (H k K). f_equal. apply SM, CB. }
  assert (L : List.length (firstn n (x_count x)) = n).
  { apply firstn_length_le. destruct n as [|m]; [lia|]. specialize (H m ltac:(lia)).
    assert (m < List.length (x_count x))%nat by (apply nth_error_Some; congruence). lia. }
  destruct (report_ok qs _ Q (small_counts _ _ _ L H' (fun k => CB _))) as [C E].
  pose proof (ordered_nodup_listing _ _ _ _ C L H') as LS.
  unfold print_imix, mix_table. cbv zeta. fold n. rewrite E. set (r := Stats_Model.report qs (firstn n (x_count x))) in *.
  exists r, (List.map (fun e => share nan (snd e) (N.of_nat (List.length xs))) r).
  split; [exact LS|].
  assert (RB : forall k c, In (k, c) r -> c <= N.of_nat (List.length xs) /\ c < 2 ^ 31).
  { intros k c I. apply LS in I as (_ & <- & _). split; [|apply CB]. unfold f, count.
    match goal with |- context [filter ?g ws] => pose proof (filter_length_le g ws) end. lia. }
  split.
  { clear - RB. induction r as [|[k c] r IH]; cbn [List.map]; constructor.
    - apply share_percent. intros Z. destruct (RB k c ltac:(left; reflexivity)) as [X _]. cbn [snd]. lia.
    - apply IH. intros k' c' I. apply (RB k' c'). right. exact I. }
  rewrite U, SM by apply CB. fold ws.
  rewrite li_dec by (apply SL, CB). rewrite !chars_codes.
  assert (FM : flat_map (mix_row nan (N.of_nat (List.length xs))) r = flat_map (fun x0 : nat * N * list N => tabulator
           ++ column 16 (Tlbdump_Spec.codes (nth (fst (fst x0)) (List.map oc_name opcodes) ""%string))
           ++ tabulator ++ column 9 (Tlbdump_Spec.codes " " ++ dec (snd (fst x0))) ++ Tlbdump_Spec.codes " " ++ column 6 (snd x0) ++ Tlbdump_Spec.codes "%" ++ newline)
           (combine r (List.map (fun e => share nan (snd e) (N.of_nat (List.length xs))) r))).
  { clear - RB SL. induction r as [|[k c] r IH]; [reflexivity|]. cbn [flat_map List.map combine].
    rewrite IH by (intros k' c' I; apply (RB k' c'); right; exact I). f_equal.
    unfold mix_row. cbn [fst snd]. rewrite spaced_dec by (apply SL; apply (RB k c); left; reflexivity).
    rewrite !chars_codes. reflexivity. }
  rewrite FM. reflexivity.
Qed.

Lemma tables_ok nan qs xs (stats imix : bool) s x : sorter qs -> N.of_nat (List.length xs) < 2 ^ 31 ->
  statistics xs (Some s, Some x) -> exists t1 t2, ppcstats_print nan qs stats imix s x = t1 ++ t2 /\
    (if stats then stats_table dec nan xs t1 else t1 = []) /\ (if imix then mix_table dec nan xs t2 else t2 = []).
Proof.
  intros Q B (s' & x' & E & R & H & U). injection E as <- <-. unfold ppcstats_print. do 2 eexists. split; [reflexivity|]. split.
  - destruct stats; [|reflexivity]. apply stats_ok; assumption.
  - destruct imix; [|reflexivity]. apply mix_ok; try assumption. rewrite (e_total _ _ R), rev_length. apply N.mod_small.
    change (2 ^ 64) with (2 ^ 31 * 2 ^ 33). change (2 ^ 33) with 8589934592. lia.
Qed.

(** ** Blocks *)
Lemma occ_le a log : Bb_Spec.occ a log <= N.of_nat (List.length log).
Proof.
  unfold Bb_Spec.occ. induction log as [|b log IH]; [reflexivity|]. cbn [count_occ]. destruct (N.eq_dec b a); cbn [List.length]; lia.
Qed.
Lemma firsts_length log : (List.length (Bb_Spec.firsts log) <= List.length log)%nat.
Proof.
  induction log as [|a log IH]; [reflexivity|]. cbn [Bb_Spec.firsts List.length].
  pose proof (filter_length_le (fun x => negb (x =? a)) (Bb_Spec.firsts log)). lia.
Qed.
Lemma span_length a n : List.length (Bb_Spec.span a n) = n.
Proof. revert a. induction n as [|n IH]; intros a; [reflexivity|]. cbn. rewrite IH. reflexivity. Qed.
Lemma block_size_le B log : Permutation (flat_map Bb_Spec.block_addrs B) (Bb_Spec.firsts log) ->
  Forall (fun b => Bb_Model.b_size b <= N.of_nat (List.length log)) B.
Proof.
  intros P. apply Permutation_length in P. pose proof (firsts_length log) as F. rewrite <- P in F. clear P.
  apply Forall_forall. intros b I. apply in_split in I as (l1 & l2 & ->). rewrite flat_map_app, app_length in F.
  cbn [flat_map] in F. rewrite app_length in F. unfold Bb_Spec.block_addrs at 2 in F. rewrite span_length in F. lia.
Qed.

Lemma blocks_ok nan qs log s : Bb_Spec.sorter qs -> Forall (fun a => a < 2 ^ 64) log ->
  N.of_nat (List.length log) < 2 ^ 31 -> Bb_Model.bb_run log = Bb_Model.BOk s ->
  exists t, bb_text nan qs s = Bb_Model.BOk t /\ block_table dec dec02 hex16 nan log t.
Proof.
  intros Q A B E. destruct (Bb_Proofs2.dump_small qs log s Q A B E) as (bs & D & P & F & O & _).
  unfold bb_text. rewrite D. eexists. split; [reflexivity|].
  assert (LN : Bb_Model.bb_num s = N.of_nat (List.length log)).
  { destruct (N.le_gt_cases (N.of_nat (List.length (Bb_Spec.firsts log))) (2 ^ 30)) as [G|G].
    - destruct (Bb_Proofs.counts log G) as (s' & E' & _ & _ & Nm & _). rewrite E in E'. injection E' as <-.
      rewrite Nm. apply N.mod_small. change (2 ^ 64) with (2 ^ 31 * 2 ^ 33). change (2 ^ 33) with 8589934592. lia.
    - assert (X : Bb_Model.bb_run log = Bb_Model.BErr Bb_Model.BOverflow) by (apply Bb_Proofs.fails_iff; split; [reflexivity|exact G]).
      rewrite E in X. discriminate X. }
  rewrite LN. pose proof (block_size_le bs log P) as SZ.
  set (total := N.of_nat (List.length log)) in *.
  set (share_of := fun b => let n := Bb_Model.bb_instruction_num b in
             if total =? 0 then (if n =? 0 then nan else chars "inf")
             else fixed (float (times hundred (over (double n) (double total))))).
  exists bs, (List.map share_of bs). split; [split; [exact P|split; [|exact O]]|].
  { exact F. }
  assert (FF : Forall (fun b => Bb_Model.b_size b <= total /\ Bb_Model.b_hit b <= total /\ 0 < Bb_Model.b_size b) bs).
  { rewrite Forall_forall in *. intros b I. destruct (F b I) as (H1 & H2 & _). split; [apply SZ, I|]. split; [|exact H2].
    rewrite H1. apply occ_le. }
  assert (NUM : forall b, Bb_Model.b_size b <= total -> Bb_Model.b_hit b <= total ->
    Bb_Model.bb_instruction_num b = Bb_Model.b_size b * Bb_Model.b_hit b).
  { intros b H1 H2. unfold Bb_Model.bb_instruction_num, Word.u64.
    assert (W : Bb_Model.b_size b * Bb_Model.b_hit b < 2 ^ 64).
    { change (2 ^ 64) with (2 ^ 31 * 2 ^ 33). apply N.le_lt_trans with (2 ^ 31 * 2 ^ 31);
        [apply N.mul_le_mono; lia|vm_compute; reflexivity]. }
    apply N.mod_small. exact W. }
  split.
  - clear - FF NUM. induction bs as [|b bs IH]; cbn [List.map]; constructor; inversion FF as [|? ? (H1 & H2 & H3) FF']; subst; [|auto].
    unfold percent, share_of. cbv zeta. fold total. rewrite NUM by assumption. destruct (N.eqb_spec total 0) as [Z|Z]; [lia|].
    rewrite fixed_hundredths. eexists. split; [|f_equal]. destruct (usage_near (Bb_Model.b_size b * Bb_Model.b_hit b) total ltac:(lia)) as [U V].
    apply fixed_close; [lia|exact V|exact U].
  - assert (T63 : total < 2 ^ 63) by (change (2 ^ 63) with (2 ^ 31 * 2 ^ 32); change (2 ^ 32) with 4294967296; lia).
    assert (G : forall i, bb_rows nan total i bs = block_lines dec dec02 hex16 i (combine bs (List.map share_of bs))); [|exact (G 0)].
    clear - FF T63. induction bs as [|b bs IH]; intros i; [reflexivity|].
    inversion FF as [|? ? (H1 & H2 & H3) FF']; subst. cbn [List.map combine bb_rows block_lines]. rewrite (IH FF').
    unfold bb_print. rewrite !spaced_dec by lia. fold (share_of b). generalize (share_of b) as q. intros q.
    rewrite !chars_codes. rewrite <- !app_assoc. reflexivity.
Qed.
