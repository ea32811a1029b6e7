(** qtdis and the statistics script in a pipe: proofs of C75. *)
Require Import Arith NArith ZArith List Bool Lia ZifyBool ZifyN ZifyNat.
Require Import Verif.Args_Model Verif.Script_Model Verif.Script_Spec Verif.Script_Proofs Verif.Script_Proofs2.
Require Import Verif.Codec_Types Verif.Codec_Spec Verif.Writer_Model Verif.Htm_Model Verif.HtmBits_Spec.
Require Import Verif.Qtdis_Model Verif.Qtdis_Spec Verif.Qtdis_Proofs2.
Require Import Verif.Trace_Spec Verif.Trace8_Proofs5 Verif.Trace10_Spec Verif.Trace10_Proofs7 Verif.Convert_Model Verif.Convert_Spec.
Require Import Verif.Tools_Model Verif.Tools_Spec Verif.Tools_Proofs Verif.Pipe_Model Verif.Pipe_Spec.
Require Verif.Stats_Model Verif.Stats_Spec Verif.Tlb_Model Verif.Tlb_Spec.
Import ListNotations.
Local Open Scope N_scope.

(** ** Any file that qtdis can list *)
Definition line_p (x : listed) : pline := mk_pline (q_ea x) (q_text x) (drop_all SyS_ 0 (drop_all sys_ 0 (name_of x))).
Lemma count_map {A B} (g : A -> B) f l : Script_Spec.count f (List.map g l) = Script_Spec.count (fun x => f (g x)) l.
Proof.
  unfold Script_Spec.count. induction l as [|x l IH]; [reflexivity|]. cbn [List.map filter].
  destruct (f (g x)); cbn [length]; lia.
Qed.
Lemma count_ext {A} (f g : A -> bool) l : (forall x, f x = g x) -> Script_Spec.count f l = Script_Spec.count g l.
Proof. intros E. unfold Script_Spec.count. rewrite (filter_ext f g E). reflexivity. Qed.
Lemma count_rev {A} (f : A -> bool) l : Script_Spec.count f (rev l) = Script_Spec.count f l.
Proof.
  unfold Script_Spec.count. induction l as [|x l IH]; [reflexivity|]. cbn [rev filter]. rewrite filter_app, app_length. cbn [filter].
  destruct (f x); cbn [length]; lia.
Qed.
Lemma opal_eq a : (a / 2 ^ 24 =? 0x30) = in_opal a.
Proof.
  unfold in_opal. pose proof (N.div_mod a (2 ^ 24) ltac:(discriminate)) as D.
  pose proof (N.mod_lt a (2 ^ 24) ltac:(discriminate)) as M. change (2 ^ 24) with 16777216 in *.
  destruct (a / 16777216 =? 0x30) eqn:E; symmetry; lia.
Qed.

Lemma pipe_core sym dis slack file ls : plain_names sym -> plain_texts dis ->
  qtdis_lines slack file = Some ls -> Forall (fun l => fst l < 2 ^ 64) ls ->
  let ps := List.map (fun l => line_p (line_of sym dis l)) ls in
  piped sym dis slack file = Some (fold_left parse_one ps pst0)
  /\ Script_Spec.tells (rev ps) (fold_left parse_one ps pst0)
  /\ numbers (List.map fst ls) (fold_left parse_one ps pst0).
Proof.
  intros NS TX Q B ps.
  assert (P : Forall proper (List.map (line_of sym dis) ls)).
  { apply Forall_map. eapply Forall_impl; [|exact B]. intros l L. unfold proper, line_of. cbn.
    split; [exact L|]. split; [|apply TX].
    destruct (sym (fst l)) as [[n off]|] eqn:E; [|exact I]. eapply NS. exact E. }
  assert (T : Script_Spec.tells (rev ps) (fold_left parse_one ps pst0)).
  { apply counts. unfold ps. apply Forall_map. exact B. }
  split; [|split; [exact T|]].
  - unfold piped. rewrite Q. pose proof (script_reads _ P pst0) as R. rewrite !map_map in R. exact R.
  - destruct T as [T1 T2 T3 _ _ T4 _ _ _ _]. unfold numbers. rewrite T1, T2, T3, !count_rev. unfold ps. rewrite !count_map.
    split; [reflexivity|]. split; [apply count_ext; intros x; apply opal_eq|]. split.
    + apply count_ext. intros x. unfold user_c, in_user, opal_c. cbn. rewrite <- opal_eq. reflexivity.
    + intros k K. eapply eq_trans; [apply (T4 k K)|]. rewrite count_rev. unfold ps. rewrite !count_map. reflexivity.
Qed.

Lemma pipe_same sym dis ls xs : Forall Stats_Spec.wf xs -> List.map fst ls = List.map fst xs ->
  Forall (fun x => fst x < 13 * 2 ^ 60) xs ->
  exists t, Stats_Model.log_all Stats_Model.stt0 xs = Some t
    /\ same t (fold_left parse_one (List.map (fun l => line_p (line_of sym dis l)) ls) pst0).
Proof.
  intros W E B. apply (agrees _ xs W); [|exact B]. rewrite map_map. exact E.
Qed.

(** ** Written traces *)
Lemma frames_typed rs : frames rs -> Forall typed rs.
Proof.
  destruct rs as [|r rs]; [constructor|]. intros (T & _ & _ & _ & C). constructor; [exact T|].
  clear T. revert r C. induction rs as [|c rs IH]; intros r C; [constructor|]. cbn in C. constructor; [apply C|].
  eapply IH. apply C.
Qed.
Lemma firsts_forall P : forall n rs, (length rs <= n)%nat -> Forall P rs -> Forall P (firsts rs).
Proof.
  induction n as [|n IH]; intros rs L F; [destruct rs; [constructor|cbn in L; lia]|].
  destruct F as [|r rs R F]; [constructor|]. cbn [firsts]. constructor; [exact R|].
  destruct (is_prefix_word (q_insn r)); [|apply IH; [cbn in L; lia|exact F]].
  destruct F as [|r2 rs R2 F]; [constructor|]. apply IH; [cbn in L; lia|exact F].
Qed.

Theorem pipe_written : forall sym dis magic rs slack, plain_names sym -> plain_texts dis ->
  magic < 2 ^ 32 -> frames rs -> closes rs -> complete rs = true -> (4 <= length slack)%nat ->
  let addrs := List.map q_insn_addr (firsts rs) in
  exists file s, write_trace magic rs = inr file /\ piped sym dis slack file = Some s /\ numbers addrs s
    /\ (Forall (fun a => a < 13 * 2 ^ 60) addrs -> exists t m, qtdis_stats slack file = Some (Some t, m) /\ same t s).
Proof.
  intros sym dis magic rs slack NS TX M F C K SL addrs.
  destruct (written_listing magic rs slack M F C K SL) as (file & x & W & R & LI & _).
  destruct (written_logs (mk_options 0 true false) magic rs slack eq_refl M F C K SL) as (file2 & x2 & W2 & R2 & LG & _).
  rewrite W in W2. injection W2 as <-. specialize (LG eq_refl).
  pose proof (firsts_forall _ _ rs (le_n _) (frames_typed rs F)) as TY.
  assert (EA : List.map fst (lines x) = addrs).
  { apply (f_equal (List.map fst)) in LI. rewrite !map_map in LI. exact LI. }
  assert (B : Forall (fun l => fst l < 2 ^ 64) (lines x)).
  { apply (proj1 (Forall_map fst (fun a => a < 2 ^ 64) (lines x))). rewrite EA. unfold addrs. apply Forall_map.
    eapply Forall_impl; [|exact TY]. intros q T. apply T. }
  destruct (pipe_core sym dis slack file (lines x) NS TX) as (P1 & _ & P2); [unfold qtdis_lines; rewrite R; reflexivity|exact B|].
  exists file. eexists. split; [exact W|]. split; [exact P1|]. rewrite EA in P2. split; [exact P2|].
  intros L. destruct (pipe_same sym dis (lines x) (logged x2)) as (t & T1 & T2).
  - rewrite LG. apply Forall_map. eapply Forall_impl; [|exact TY]. intros q T. split; apply T.
  - rewrite LG, map_map. exact EA.
  - rewrite LG. apply Forall_map. unfold addrs in L. rewrite Forall_map in L. exact L.
  - exists t. eexists. split; [unfold qtdis_stats; rewrite R2; unfold ppcstats; rewrite T1; reflexivity|exact T2].
Qed.

(** ** Converted and recorded traces *)
Lemma pipe_pr : forall sym dis qs slack, plain_names sym -> plain_texts dis ->
  frames qs -> closes qs -> (4 <= length slack)%nat -> pcomplete (List.map pr qs) = true ->
  let xs := pfirsts (List.map pr qs) in
  exists file s, write_trace 0 qs = inr file /\ piped sym dis slack file = Some s /\ numbers (List.map fst xs) s
    /\ (Forall (fun x => fst x < 13 * 2 ^ 60) xs -> exists t m, qtdis_stats slack file = Some (Some t, m) /\ same t s).
Proof.
  intros sym dis qs slack NS TX F C SL PC xs.
  destruct (firsts_pr (length qs) qs (le_n _)) as [E1 E2]. rewrite <- E2 in PC.
  destruct (pipe_written sym dis 0 qs slack NS TX eq_refl F C PC SL) as (file & s & W & P & K & S).
  assert (EA : List.map q_insn_addr (firsts qs) = List.map fst xs).
  { unfold xs. rewrite <- E1, map_map. reflexivity. }
  rewrite EA in K, S. exists file, s. split; [exact W|]. split; [exact P|]. split; [exact K|].
  intros B. apply S. rewrite Forall_map. exact B.
Qed.

Theorem pipe8 : forall sym dis qs stale junk bad items slack, plain_names sym -> plain_texts dis ->
  (forall n, quiet8 (junk n)) -> Tlb_Spec.sorter qs -> (forall z, length (stale z) = 8%nat) ->
  let ws := flat_map words8 items in
  (Z.of_nat (length ws) < 2 ^ 30)%Z -> trace8_ok 0 items ->
  Tlb_Spec.no_mixed_overlap (pages8 0 items) -> Tlb_Spec.top_unused [] (pages8 0 items) ->
  bad = true \/ other (be_val (stale (Z.of_nat (length ws)))) -> (4 <= length slack)%nat ->
  Forall whole8 items ->
  exists file s, htmdecoder qs stale junk (bytes_of ws) bad = COk file
    /\ piped sym dis slack file = Some s /\ numbers (List.map fst (insns8 0 items)) s
    /\ (Forall (fun x => fst x < 13 * 2 ^ 60) (insns8 0 items) ->
        exists t m, htmdecoder_stats qs stale junk (bytes_of ws) bad = Some (Some t, m)
          /\ qtdis_stats slack file = Some (Some t, m) /\ same t s).
Proof.
  intros sym dis qs stale junk bad items slack NS TX Q QS SL ws SM OK P1 P2 OT LS WH.
  destruct (written8 qs stale junk bad items Q QS SL SM OK P1 P2 OT) as (s & E & FR & CL & G & WF).
  pose proof (whole8_insns items 0 WH) as WI. destruct (pfirsts_id _ WI) as [PF PC].
  destruct (pipe_pr sym dis _ slack NS TX FR CL LS) as (file & p & W & A & B & D); [rewrite G; exact PC|].
  rewrite G, PF in *.
  destruct (tools8 qs stale junk bad items slack Q QS SL SM OK P1 P2 OT LS WH) as (file2 & H1 & (r & H2 & H3 & _) & _).
  unfold htmdecoder in *. fold ws in H1. unfold ws in *. rewrite E, W in H1. injection H1 as <-.
  exists file, p. rewrite E, W. split; [reflexivity|]. split; [exact A|]. split; [exact B|].
  intros L. destruct (D L) as (t & m & T1 & T2). exists t, m. rewrite T1 in H3. injection H3 as <-. auto.
Qed.

Theorem pipe10 : forall sym dis qs stale junk bad items slack, plain_names sym -> plain_texts dis ->
  (forall n, quiet10 (junk n)) -> (forall z, length (stale z) = 8%nat) ->
  let ws := file10 true start10 items in
  (Z.of_nat (length ws) < 2 ^ 30)%Z -> trace10_ok true start10 items -> Forall worded10 items ->
  bad = true \/ other (be_val (stale (Z.of_nat (length ws)))) -> (4 <= length slack)%nat ->
  Forall whole10 items ->
  exists file s, htmdecoder qs stale junk (bytes_of ws) bad = COk file
    /\ piped sym dis slack file = Some s /\ numbers (List.map fst (heads10 start10 items)) s
    /\ (Forall (fun x => fst x < 13 * 2 ^ 60) (heads10 start10 items) ->
        exists t m, qtdis_stats slack file = Some (Some t, m) /\ same t s).
Proof.
  intros sym dis qs stale junk bad items slack NS TX Q SL ws SM OK WO OT LS WH.
  destruct (written10 qs stale junk bad items Q SL SM OK WO OT WH) as (s & E & FR & CL & G & PC & WF).
  destruct (pipe_pr sym dis _ slack NS TX FR CL LS PC) as (file & p & W & A & B & D).
  rewrite G in *. exists file, p. unfold htmdecoder, ws. rewrite E, W. split; [reflexivity|]. auto.
Qed.

