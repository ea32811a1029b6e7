(** Proofs for C58 and C59: theorems and counterexamples. *)
Require Import NArith ZArith List Bool Lia.
Require Import ZifyBool ZifyN ZifyNat.
Require Import Verif.Word Verif.Codec_Types Verif.Codec_Spec Verif.Writer_Model Verif.Reader_Model.
Require Import Verif.Branch_Spec Verif.Branch_Model Verif.Branch_Proofs Verif.Storage_Spec Verif.Step_Model Verif.Step_Spec Verif.Pids_Model Verif.Pids_Spec.
Require Import Verif.Convert_Spec Verif.Convert_Proofs Verif.Tracer_Model Verif.Tracer_Spec Verif.Tracer_Proofs2 Verif.Tracer_Proofs3.
Import ListNotations.
Local Open Scope N_scope.

Lemma file_ok : forall be xl max tp skip left l0 t evs ks slack,
  left < 2 ^ 64 -> holds max t l0 -> (length l0 <= max)%nat -> Forall2 (is_kind xl tp) evs ks ->
  (4 <= length slack)%nat ->
  let '(p, ended) := session tp skip left 0 (combine evs ks) in
  let w := wanted skip left (flat_map saw p) in
  N.of_nat (length w) < 2 ^ 31 -> Forall (fun x => s_word x <> 0) w ->
  if ended
  then exists gs h file,
      ptracer_file (main_loop be max xl tp (start skip left t tp) evs) = FClosed file
      /\ told xl [] w gs h
      /\ converted gs (map view_of (fst (read_trace false false slack file)))
      /\ snd (read_trace false false slack file) = EndFalse
  else exists s, main_loop be max xl tp (start skip left t tp) evs = TWaits s.
Proof.
  intros be xl max tp skip left l0 t evs ks slack LB H L0 F SL.
  pose proof (ptracer_ok be xl max tp skip left l0 t evs ks slack LB H L0 F SL) as P.
  destruct (session tp skip left 0 (combine evs ks)) as [p c]. intros w BD NZ.
  destruct (P BD NZ) as (s & E & _ & _ & gs & h & bytes & T & W & C & R). rewrite E. destruct c.
  - exists gs, h, bytes. cbn [ptracer_file]. rewrite W. auto.
  - exists s. reflexivity.
Qed.

Lemma shown_length : forall l p g vs, shown p g l vs -> length vs = S (length l).
Proof.
  induction l as [|g' l IH]; intros p g [|v vs]; cbn [shown]; try contradiction.
  - intros [_ ->]. reflexivity.
  - intros [_ H]. cbn [length]. erewrite IH by exact H. reflexivity.
Qed.
Lemma converted_length : forall l vs, converted l vs -> length vs = length l.
Proof. intros [|g l] vs H; [cbn in H; subst; reflexivity|]. apply shown_length in H. exact H. Qed.
Lemma told_length : forall xl h l gs h', told xl h l gs h' -> length gs = length l.
Proof. intros xl h l gs h' T. induction T; cbn [length]; congruence. Qed.
Lemma saw_length : forall p, length (flat_map saw p) = length (flat_map reports p).
Proof.
  induction p as [|x p IH]; [reflexivity|]. cbn [flat_map]. rewrite !app_length, IH. unfold saw.
  rewrite map_length. reflexivity.
Qed.
Lemma wanted_length : forall A skip left (l : list A), N.of_nat (length (wanted skip left l))
  = if unlimited left then N.of_nat (length l) - skip else N.min left (N.of_nat (length l) - skip).
Proof.
  intros A skip left l. unfold wanted. destruct (unlimited left); [rewrite skipn_length; lia|].
  rewrite firstn_length, skipn_length. lia.
Qed.
Lemma wanted_incl : forall A skip left (l : list A) (P : A -> Prop), Forall P l -> Forall P (wanted skip left l).
Proof.
  assert (SK : forall A n (l : list A) P, Forall P l -> Forall P (skipn n l)).
  { induction n as [|n IH]; intros l P H; [exact H|]. destruct H; [constructor|]. cbn. apply IH. assumption. }
  assert (FI : forall A n (l : list A) P, Forall P l -> Forall P (firstn n l)).
  { induction n as [|n IH]; intros l P H; [constructor|]. destruct H; constructor; [assumption|]. apply IH. assumption. }
  intros A skip left l P H. unfold wanted. destruct (unlimited left); [apply SK, H|apply FI, SK, H].
Qed.

Lemma count_ok : forall be xl max tp skip left l0 t evs ks slack file,
  left < 2 ^ 64 -> holds max t l0 -> (length l0 <= max)%nat -> Forall2 (is_kind xl tp) evs ks ->
  (4 <= length slack)%nat ->
  let p := fst (session tp skip left 0 (combine evs ks)) in
  let n := N.of_nat (length (flat_map reports p)) in
  n < 2 ^ 31 -> Forall (fun x => s_word x <> 0) (flat_map saw p) ->
  ptracer_file (main_loop be max xl tp (start skip left t tp) evs) = FClosed file ->
  N.of_nat (length (fst (read_trace false false slack file)))
  = if unlimited left then n - skip else N.min left (n - skip).
Proof.
  intros be xl max tp skip left l0 t evs ks slack file LB H L0 F SL.
  pose proof (file_ok be xl max tp skip left l0 t evs ks slack LB H L0 F SL) as P.
  destruct (session tp skip left 0 (combine evs ks)) as [p c]. intros p' n BD NZ E. subst p'. cbn [fst] in *.
  pose proof (wanted_length _ skip left (flat_map saw p)) as WL. rewrite saw_length in WL. fold n in WL.
  destruct c.
  - destruct P as (gs & h & file' & E' & T & C & _).
    { destruct (unlimited left); lia. }
    { apply wanted_incl, NZ. }
    rewrite E in E'. injection E' as <-. apply converted_length in C. apply told_length in T.
    rewrite map_length in C. rewrite C, T. exact WL.
  - destruct P as (s & E').
    { destruct (unlimited left); lia. }
    { apply wanted_incl, NZ. }
    rewrite E' in E. discriminate.
Qed.

Lemma requests_ok : forall be xl max tp skip left l0 t evs ks,
  left < 2 ^ 64 -> holds max t l0 -> (length l0 <= max)%nat -> Forall2 (is_kind xl tp) evs ks ->
  let s := session tp skip left 0 (combine evs ks) in
  N.of_nat (length (wanted skip left (flat_map saw (fst s)))) < 2 ^ 31 ->
  exists st, main_loop be max xl tp (start skip left t tp) evs = (if snd s then TClosed st else TWaits st)
    /\ t_done st = Step tp 0 :: responses max tp l0 s
    /\ holds max (t_pids st) (threads max l0 (fst s)).
Proof.
  intros be xl max tp skip left l0 t evs ks LB H L0 F.
  pose proof (loop_ok be xl max tp skip left l0 LB L0 evs ks [] (start skip left t tp) F
    (big_start xl max tp skip left l0 LB L0 t H)) as LK. cbn [flat_map app nlen length] in LK.
  change (nlen []) with 0 in LK.
  destruct (session tp skip left 0 (combine evs ks)) as [p c]. intros s BD. subst s. cbn [fst snd] in *.
  destruct (LK BD) as (s & E & R). exists s. split; [exact E|].
  destruct c; [destruct R as (R1 & R2 & R3)|destruct R as (R1 & R2 & R3 & _)]; split; assumption.
Qed.

(** ** An example *)
Definition code : mem := mem_of 0x410000
  [0x60000000; 0xe8610008; 0x7d201828; 0x7d40192d; 0x60000000; 0x4e800020; 0x60000000; 0x60000000].
Definition pages : Pagemap_Model.kernel := Pagemap_Model.mk_kernel (fun p => Some (2 ^ 63 + 0x1000 + p)) (fun _ => Some 0).
(** Registers r1 and r3 *)
Definition gprs (r : N) : N := if r =? 1 then 0x500000 else if r =? 3 then 0x600010 else 0.
Definition ev (pid : Z) (evt sig pc : N) (to : N) : event :=
  mk_event pid true evt sig (Some 78%Z) (Some true) true pc code (fun _ => true) (fun m => (m, Illegal to))
    (Some gprs) (fun _ _ => pages).
(** Thread 77 executes two instructions, creates a thread, which gets a signal,
    executes an atomic sequence and ends. *)
Definition ex_events : list event :=
  [ev 77 0 5 0x410000 0; ev 77 0 5 0x410004 0; ev 77 3 5 0x410008 0; ev 78 128 5 0 0; ev 77 0 5 0x410008 0x410010;
   ev 78 0 10 0 0; ev 78 0 4 0 0; ev 78 6 5 0 0; ev 77 0 14 0x410014 0; ev 77 6 5 0 0].
Definition ex_kinds : list kind :=
  [Single 0; Single 0; Born 78; Signal; Atomic 0x410010; Signal; Signal; Gone; Single 14; Gone].

Lemma code_words : words code.
Proof.
  intros a w. unfold code, mem_of. destruct (_ && _); [|discriminate]. intros H.
  apply nth_error_In in H. cbn [In] in H. change (2 ^ 32) with 4294967296. lia.
Qed.
Lemma gprs_ok : forall pid event sig pc to, registers (ev pid event sig pc to).
Proof.
  intros. exists gprs. split; [reflexivity|]. intros r. unfold gprs. destruct (r =? 1); [reflexivity|].
  destruct (r =? 3); reflexivity.
Qed.
Lemma pages_ok : forall ea, page_readable pages ea.
Proof. intros ea. eexists. split; [reflexivity|]. discriminate. Qed.
Lemma code_reportable : forall pid event sig pc to a, In a [0x410000; 0x410004; 0x410008; 0x41000c; 0x410010; 0x410014] ->
  reportable true (ev pid event sig pc to) a.
Proof.
  intros pid event sig pc to a H. unfold reportable.
  split; [|split; [|split; [|split; [intros _; apply pages_ok|intros d _ _; apply pages_ok]]]].
  - cbn [In] in H. change (2 ^ 64) with 18446744073709551616. lia.
  - unfold fetchable. cbn [In] in H.
    destruct H as [<-|[<-|[<-|[<-|[<-|[<-|[]]]]]]]; do 2 eexists; (split; [vm_compute; reflexivity|]);
      (split; [vm_compute; reflexivity|]); lia.
  - cbn [In] in H. destruct H as [<-|[<-|[<-|[<-|[<-|[<-|[]]]]]]]; vm_compute; discriminate.
Qed.
Lemma code_sequence : sequence code 0x410008 1.
Proof.
  split; [|split; [|split]].
  - intros k Hk. destruct k as [|[|k]]; [discriminate..|lia].
  - intros w E. vm_compute in E. injection E as <-. vm_compute. auto.
  - intros k w Hk E. destruct k as [|k]; [|lia]. vm_compute in E. injection E as <-.
    intros (H0 & H & _). vm_compute in H0, H. intuition discriminate.
  - intros w E. vm_compute in E. injection E as <-. vm_compute. intuition.
Qed.
Lemma code_exit : forall x, exit_point code 0x410008 1 x <-> x = 0x410010.
Proof.
  intros x. split; [|intros ->; left; reflexivity].
  intros [H|(_ & k & w & Hk & E & Hb & _)]; [exact H|].
  destruct k as [|k]; [|lia]. vm_compute in E. injection E as <-. vm_compute in Hb. discriminate.
Qed.
Lemma code_leaves : forall pid event sig, leaves_for (ev pid event sig 0x410008 0x410010) 0x410010.
Proof.
  intros pid event sig. exists 1%nat. cbn [ev e_mem e_pc e_poke e_run fst snd].
  split; [exact code_sequence|]. split; [lia|]. split; [vm_compute; lia|]. split; [|split; [|split]].
  - intros k Hk. destruct k as [|[|k]]; [| |lia]; do 2 eexists; (split; [vm_compute; reflexivity|]);
      (split; [vm_compute; reflexivity|]); lia.
  - intros x X. apply code_exit in X. subst x. split; [|reflexivity].
    do 2 eexists. split; [vm_compute; reflexivity|]. split; [vm_compute; reflexivity|]. lia.
  - intros m1 W. exact W.
  - intros m1 B. split; [reflexivity|]. split; [|reflexivity].
    intros x X. split; [apply B, X|]. apply code_exit in X. subst x.
    rewrite (proj2 (B _)); [vm_compute; discriminate|]. intros X. apply code_exit in X. discriminate.
Qed.
Lemma plain_ev : forall pid sig pc to, plain (ev pid 0 sig pc to).
Proof. intros. split; [|discriminate]. intros H. cbn in H. intuition discriminate. Qed.
Lemma single_ev : forall sig pc, sig <> 16 -> In pc [0x410000; 0x410004; 0x410010; 0x410014] ->
  is_kind true 77 (ev 77 0 sig pc 0) (Single (if sig =? 5 then 0 else sig)).
Proof.
  intros sig pc NS IN. split; [reflexivity|]. split; [reflexivity|]. split; [split; [apply plain_ev|split; [exact NS|reflexivity]]|].
  split; [exact code_words|]. split; [apply gprs_ok|].
  split; [apply code_reportable; cbn [ev e_pc]; cbn [In] in *; tauto|].
  split; [cbn [ev e_pc In MINUS1] in *; unfold MINUS1; lia|].
  split.
  - cbn [ev e_pc In] in *. destruct IN as [<-|[<-|[<-|[<-|[]]]]]; intros [H1 H2]; vm_compute in H1, H2; intuition discriminate.
  - cbn [ev e_sig e_trace]. destruct (sig =? 5); [exists true; split; reflexivity|reflexivity].
Qed.
Lemma atomic_ev : forall sig, sig <> 16 -> is_kind true 77 (ev 77 0 sig 0x410008 0x410010) (Atomic 0x410010).
Proof.
  intros sig NS. split; [reflexivity|]. split; [reflexivity|]. split; [split; [apply plain_ev|split; [exact NS|reflexivity]]|].
  split; [exact code_words|]. split; [apply gprs_ok|]. split; [apply code_leaves|].
  split; [reflexivity|]. split; [reflexivity|]. split; [reflexivity|].
  repeat constructor; apply code_reportable; cbn; tauto.
Qed.
Lemma ex_ok : Forall2 (is_kind true 77) ex_events ex_kinds.
Proof.
  unfold ex_events, ex_kinds.
  constructor; [apply (single_ev 5 0x410000); cbn; auto; discriminate|].
  constructor; [apply (single_ev 5 0x410004); cbn; auto; discriminate|].
  constructor; [split; [reflexivity|]; split; [reflexivity|]; split; [cbn; auto|reflexivity]|].
  constructor.
  { split; [reflexivity|]. split; [reflexivity|]. split; [|split; [discriminate|discriminate]].
    split; [|discriminate]. intros H. cbn in H. intuition discriminate. }
  constructor; [apply atomic_ev; discriminate|].
  constructor; [split; [reflexivity|]; split; [reflexivity|]; split; [apply plain_ev|split; discriminate]|].
  constructor; [split; [reflexivity|]; split; [reflexivity|]; split; [apply plain_ev|split; discriminate]|].
  constructor; [split; [reflexivity|]; split; [reflexivity|]; reflexivity|].
  constructor; [apply (single_ev 14 0x410014); cbn; auto; discriminate|].
  constructor; [split; [reflexivity|]; split; [reflexivity|]; reflexivity|]. constructor.
Qed.

Definition table1 : table := mk_table (repeat (mk_pid 77 0) 4) 1.
Definition ex_run (skip left : N) : tres := main_loop false 4 true 77 (start skip left table1 77) ex_events.
Definition done_of (r : tres) : list request :=
  match r with TDied s | TClosed s | TWaits s => t_done s end.
Definition file_views (r : tres) : list view :=
  match ptracer_file r with FClosed f => map view_of (fst (read_trace false false (repeat 0 8) f)) | _ => [] end.

(** A signal arrives before the instruction is executed. *)
Definition interrupted : list event := [ev 77 0 5 0x410000 0; ev 77 0 14 0x410000 0; ev 77 0 5 0x410014 0; ev 77 6 5 0 0].
Lemma interrupted_ok : Forall2 (is_kind true 77) interrupted [Single 0; Single 14; Single 0; Gone].
Proof.
  unfold interrupted. constructor; [apply (single_ev 5 0x410000); cbn; auto; discriminate|].
  constructor; [apply (single_ev 14 0x410000); cbn; auto; discriminate|].
  constructor; [apply (single_ev 5 0x410014); cbn; auto; discriminate|].
  constructor; [split; [reflexivity|]; split; [reflexivity|]; reflexivity|]. constructor.
Qed.
Lemma branch_made_up : ~ forall evs ks, Forall2 (is_kind true 77) evs ks ->
  Forall (fun v => v_branch v = true -> isa_bo_branch (v_insn v) \/ isa_always_branch (v_insn v))
    (file_views (main_loop false 4 true 77 (start 0 100 table1 77) evs)).
Proof.
  intros H. specialize (H _ _ interrupted_ok).
  assert (L : exists v vs, file_views (main_loop false 4 true 77 (start 0 100 table1 77) interrupted) = v :: vs
      /\ v_branch v = true /\ v_insn v = 0x60000000).
  { eexists. eexists. split; [vm_compute; reflexivity|]. split; reflexivity. }
  destruct L as (v & vs & E & B & I). rewrite E in H. inversion H as [|? ? H1 _]; subst.
  specialize (H1 B). rewrite I in H1. apply is_branch_spec in H1; [vm_compute in H1; discriminate|reflexivity].
Qed.
Lemma signal_lost : ~ forall evs ks, Forall2 (is_kind true 77) evs ks ->
  forall e, In e evs -> halts 77 e -> e_sig e <> 5 ->
  exists r, In r (done_of (main_loop false 4 true 77 (start 0 100 table1 77) evs))
    /\ (r = Step 77 (e_sig e) \/ r = Cont 77 (e_sig e)).
Proof.
  intros H. specialize (H [ev 77 0 14 0x410008 0x410010] [Atomic 0x410010]).
  destruct (H ltac:(constructor; [apply atomic_ev; discriminate|constructor]) (ev 77 0 14 0x410008 0x410010)) as (r & I & R).
  - left. reflexivity.
  - split; [apply plain_ev|]. split; [discriminate|reflexivity].
  - discriminate.
  - assert (L : done_of (main_loop false 4 true 77 (start 0 100 table1 77) [ev 77 0 14 0x410008 0x410010])
      = [Step 77 0; Cont 77 0; Step 77 0]) by (vm_compute; reflexivity).
    rewrite L in I. cbn [In] in I. cbn [ev e_sig] in R. destruct R as [-> | ->]; intuition discriminate.
Qed.
