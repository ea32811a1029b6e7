(** Proofs for C68: the tracer, and prefixed instructions. *)
Require Import NArith ZArith List Bool Lia.
Require Import ZifyBool ZifyN ZifyNat.
Require Import Verif.Word Verif.Codec_Types Verif.Codec_Spec Verif.Writer_Model Verif.Reader_Model.
Require Import Verif.Stats_Model Verif.Stats_Spec Verif.Opcode_Table Verif.Opcode_Spec.
Require Import Verif.Storage_Spec Verif.Step_Model Verif.Step_Spec Verif.Pids_Model Verif.Pids_Spec.
Require Import Verif.Convert_Spec Verif.Convert_Proofs Verif.Tracer_Model Verif.Tracer_Spec Verif.Tracer_Proofs2 Verif.Tracer_Proofs3 Verif.Tracer_Proofs4.
Require Import Verif.Tools_Model Verif.Tools_Spec Verif.Tools_Proofs.
Require Verif.Bb_Model Verif.Bb_Props.
Import ListNotations.
Local Open Scope N_scope.

Definition said (s : seen) : N * N := (s_addr s, s_word s).
Lemma told_said : forall xl h l gs h', told xl h l gs h' -> map gpr gs = map said l.
Proof.
  intros xl h l gs h' T. induction T as [|h s g h1 l gs h2 S1 T IH]; [reflexivity|]. cbn [map]. rewrite IH.
  destruct S1 as (E1 & E2 & _). unfold gpr, said. rewrite E1, E2. reflexivity.
Qed.
Lemma tracer_ok : forall be xl max tp skip left l0 t evs ks slack,
  left < 2 ^ 64 -> holds max t l0 -> (length l0 <= max)%nat -> Forall2 (is_kind xl tp) evs ks ->
  (4 <= length slack)%nat ->
  let '(p, ended) := session tp skip left 0 (combine evs ks) in
  let w := wanted skip left (flat_map saw p) in
  ended = true -> N.of_nat (length w) < 2 ^ 31 -> Forall (fun x => s_word x <> 0 /\ whole_word (s_word x)) w ->
  let xs := map (fun s => (s_addr s, s_word s)) w in
  exists file, ptracer_file (main_loop be max xl tp (start skip left t tp) evs) = FClosed file
    /\ (exists r, qtdis_stats slack file = Some r /\ statistics xs r)
    /\ (forall sort, qtdis_blocks sort slack file =
          match Bb_Model.bb_run (map fst xs) with
          | Bb_Model.BOk s => Some (Bb_Model.bb_dump sort s) | Bb_Model.BErr e => Some (Bb_Model.BErr e) end)
    /\ qtdis_lines slack file = Some (map (fun x => (fst x, [snd x])) xs).
Proof.
  intros be xl max tp skip left l0 t evs ks slack LB H L0 F SL.
  pose proof (loop_ok be xl max tp skip left l0 LB L0 evs ks [] (start skip left t tp) F
    (big_start xl max tp skip left l0 LB L0 t H)) as LK. cbn [flat_map app nlen length] in LK.
  change (nlen []) with 0 in LK.
  destruct (session tp skip left 0 (combine evs ks)) as [p c]. intros w -> BD NZ xs. subst w.
  destruct (LK BD) as (s & E & R). rewrite E. cbn [ptracer_file]. clear LK.
  destruct R as (R1 & _ & _). destruct R1 as (_ & _ & gs & h & I3 & I4 & I5 & I6 & I7).
  pose proof (told_said _ _ _ _ _ I3) as TS. pose proof (agrees_pr _ _ _ I4) as PR. rewrite TS in PR.
  assert (WG : words_good gs).
  { apply words_nonzero. apply told_words in I3. apply Forall_forall. intros g G.
    apply (in_map g_insn) in G. rewrite I3 in G. apply in_map_iff in G. destruct G as (x & <- & G).
    eapply Forall_forall in NZ; [exact (proj1 NZ)|exact G]. }
  destruct (frames_agree false gs (t_out s) I4 WG) as [FR CL].
  { intros g q _ HQ _. destruct (t_out s) as [|q' qs]; [discriminate|]. injection HQ as ->.
    inversion I7 as [|? ? Z _]; subst. rewrite Z. reflexivity. }
  assert (WH : Forall (fun x => whole_word (snd x)) xs).
  { unfold xs. rewrite Forall_forall in *. intros x I. apply in_map_iff in I. destruct I as (y & <- & I). apply (NZ y I). }
  change (map pr (t_out s) = xs) in PR. destruct (pfirsts_id _ WH) as [PF PC].
  destruct (says_records _ slack FR CL SL) as (file & W & S1 & S2 & S3); [rewrite PR; exact PC|].
  rewrite PR, PF in *. exists file. rewrite W. split; [reflexivity|]. split; [|split].
  - eexists. split; [exact S1|]. apply ppcstats_ok. change (map gpr gs = xs) in TS. rewrite <- TS.
    exact (agrees_wf _ _ _ I4).
  - exact S2.
  - apply S3. exact WH.
Qed.

(** ** A prefixed instruction *)
Definition pcode : mem := mem_of 0x410000 [0x06000000; 0x38630001; 0x60000000; 0x7c632214; 0x60000000; 0x60000000].
Definition pev (evt pc : N) : event :=
  mk_event 77 true evt 5 (Some 78%Z) (Some true) true pc pcode (fun _ => true) (fun m => (m, Illegal 0))
    (Some gprs) (fun _ _ => pages).
Definition pevents : list event := [pev 0 0x410000; pev 0 0x410008; pev 0 0x41000c; pev 6 0].
Definition pkinds : list kind := [Single 0; Single 0; Single 0; Gone].
Lemma pcode_words : words pcode.
Proof.
  intros a w. unfold pcode, mem_of. destruct (_ && _); [|discriminate]. intros H.
  apply nth_error_In in H. cbn [In] in H. change (2 ^ 32) with 4294967296. lia.
Qed.
Lemma pev_single : forall pc, In pc [0x410000; 0x410008; 0x41000c] -> is_kind true 77 (pev 0 pc) (Single 0).
Proof.
  intros pc IN. split; [reflexivity|]. split; [reflexivity|].
  split; [split; [split; [intros H; cbn in H; intuition discriminate|discriminate]|split; [discriminate|reflexivity]]|].
  split; [exact pcode_words|].
  split; [exists gprs; split; [reflexivity|]; intros r; unfold gprs; destruct (r =? 1); [reflexivity|]; destruct (r =? 3); reflexivity|].
  split.
  { unfold reportable. split; [|split; [|split; [|split; [intros _; apply pages_ok|intros d _ _; apply pages_ok]]]].
    - cbn [pev e_pc In] in *. change (2 ^ 64) with 18446744073709551616. lia.
    - unfold fetchable. cbn [In] in IN.
      destruct IN as [<-|[<-|[<-|[]]]]; do 2 eexists; (split; [vm_compute; reflexivity|]);
        (split; [vm_compute; reflexivity|]); lia.
    - cbn [In] in IN. destruct IN as [<-|[<-|[<-|[]]]]; vm_compute; discriminate. }
  split; [cbn [pev e_pc In] in *; unfold MINUS1; lia|].
  split.
  - cbn [In] in IN. destruct IN as [<-|[<-|[<-|[]]]]; intros [H1 H2]; vm_compute in H1, H2; intuition discriminate.
  - cbn [pev e_sig e_trace]. exists true. split; reflexivity.
Qed.
Lemma pkinds_ok : Forall2 (is_kind true 77) pevents pkinds.
Proof.
  unfold pevents, pkinds.
  constructor; [apply pev_single; cbn; auto|]. constructor; [apply pev_single; cbn; auto|].
  constructor; [apply pev_single; cbn; auto|]. constructor; [|constructor].
  split; [reflexivity|]. split; [reflexivity|]. vm_compute. auto.
Qed.
Lemma prefix_tracer : ~ forall evs ks file,
  Forall2 (is_kind true 77) evs ks ->
  ptracer_file (main_loop false 4 true 77 (start 0 100 table1 77) evs) = FClosed file ->
  option_map (map fst) (qtdis_lines (repeat 0 4) file)
  = Some (map s_addr (flat_map saw (fst (session 77 0 100 0 (combine evs ks))))).
Proof.
  intros H. specialize (H pevents pkinds).
  destruct (ptracer_file (main_loop false 4 true 77 (start 0 100 table1 77) pevents)) as [file| |] eqn:E;
    [|vm_compute in E; discriminate E..].
  specialize (H file pkinds_ok eq_refl). vm_compute in E. injection E as <-. vm_compute in H. discriminate H.
Qed.
